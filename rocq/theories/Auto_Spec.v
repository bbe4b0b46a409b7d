(** Specification of recursive mounting. *)
From Coq Require Import Ascii String.
From Verif Require Import PyBase PyDict PyStr Path_Spec FileInfo Union_Model Union_Spec Auto_Model.
Local Open Scope Z_scope.

Section Spec.
  Context {U : Type}.
  Implicit Types (t : mtable U).

  Definition mounted_at t (loc : location) (i : minfo U) : Prop := dget str_eqb t (written loc) = Some i.
  (** The deepest mount point at or above [loc] is [mp], and [rest] is the way from there. *)
  Definition innermost t (loc mp rest : location) (i : minfo U) : Prop :=
    loc = mp ++ rest /\ mounted_at t mp i /\ forall mp' rest' i', loc = mp' ++ rest' -> mounted_at t mp' i' -> (length mp' <= length mp)%nat.
  (** A table of mount points: the root is mounted, the mount points are canonical and different. *)
  Definition valid t : Prop :=
    (exists i, mounted_at t [] i) /\ NoDup (dkeys t) /\ forall mp, In mp (dkeys t) -> exists loc, Forall proper_name loc /\ mp = written loc.
  (** [t'] has everything that is mounted in [t], unchanged, and possibly more. *)
  Definition extends t t' : Prop := exists more, t' = t ++ more.
  (** Nothing that is mounted only in [t'] is at or above [loc]. *)
  Definition untouched t t' (loc : location) : Prop := forall mp rest i, loc = mp ++ rest -> mounted_at t' mp i -> mounted_at t mp i.

  (** ** Where a path leads when archives are opened on the way

      Starting at the root, the path is followed name by name.  Whenever the part followed so far is a file that can be opened as an archive,
      the rest of the path is followed inside that archive.  [enter] says what happens at a file: [Stop] when the nesting gets too deep. *)
  Inductive arrival := Stop | Stay | Inside (i : minfo U).
  Variable enter : location -> location -> minfo U -> arrival.
  Fixpoint follow (mp rest : location) (i : minfo U) (todo : location) : location * location * minfo U :=
    match todo with
    | [] => (mp, rest, i)
    | n :: todo' =>
      match enter mp (rest ++ [n]) i with
      | Stop => (mp, rest ++ todo, i)
      | Stay => follow mp (rest ++ [n]) i todo'
      | Inside i' => follow (mp ++ rest ++ [n]) [] i' todo'
      end
    end.
End Spec.
Arguments arrival : clear implicits.
Arguments Stop {U}. Arguments Stay {U}. Arguments Inside {U}.

(** What [enter] is for the options of the layer. *)
Definition archive_at {U} (userdata_depth : finfo U -> Z) (max_depth : Z) (strip_suffix : str -> str) (folder_mode : Z -> Z)
    (open_nested : source U -> str -> str -> finfo U -> Z -> option (source U)) (name_data : str -> U)
    (mp rest : location) (i : minfo U) : arrival U :=
  match s_lookup (mi_source i) (written rest) 0 with
  | None => Stay
  | Some f =>
    let depth := mi_depth i + (userdata_depth f + 1) in
    let path := written (mp ++ rest) in
    if max_depth <? depth then Stop
    else if str_eqb (strip_suffix path) path then Stay
    else match open_nested (mi_source i) path (written rest) f depth with
         | None => Stay
         | Some s => Inside (mkM s (mkInfo (fi_size f) (fi_mtime f) (folder_mode (fi_mode f)) [] (fi_uid f) (fi_gid f) [name_data path]) depth)
         end
  end.
