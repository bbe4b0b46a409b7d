(** Specification of dynamically mounted subvolumes: a table of mount points. *)
From Coq Require Import Ascii String.
From Verif Require Import PyBase PyDict PyStr Path_Spec FileInfo Union_Model.
Local Open Scope Z_scope.

Section Spec.
  Context {S : Type}.
  (** The mount points with what is mounted there. *)
  Definition table := list (location * S).

  Definition within (mp loc : location) : Prop := exists rest, loc = mp ++ rest.
  (** A mount point may be used if it is not the root and no mount point lies at it, above it or below it. *)
  Definition available (t : table) (loc : location) : Prop :=
    loc <> [] /\ forall mp s, In (mp, s) t -> ~ within mp loc /\ ~ within loc mp.

  Inductive op := OpMount (path : str) (s : S) | OpUnmount (path : str).
  Inductive outcome := Mounting (success : bool) | Unmounting (removed : option S).

  (** A call, the reply, and the change of the table. *)
  Inductive call : table -> op -> outcome -> table -> Prop :=
  | CMount t path s : available t (denotes path) -> call t (OpMount path s) (Mounting true) ((denotes path, s) :: t)
  | CMountFails t path s : ~ available t (denotes path) -> call t (OpMount path s) (Mounting false) t
  | CUnmount t path s t' : In (denotes path, s) t ->
      (forall mp x, In (mp, x) t' <-> In (mp, x) t /\ mp <> denotes path) -> call t (OpUnmount path) (Unmounting (Some s)) t'
  | CUnmountFails t path : (forall s, ~ In (denotes path, s) t) -> call t (OpUnmount path) (Unmounting None) t.
  Inductive calls : table -> list (op * outcome) -> table -> Prop :=
  | CallsNil t : calls t [] t
  | CallsCons t1 o r t2 l t3 : call t1 o r t2 -> calls t2 l t3 -> calls t1 ((o, r) :: l) t3.

  (** The names in the folder [loc] above mount points. *)
  Definition next_names (t : table) (loc : location) (n : str) : Prop := exists mp s rest, In (mp, s) t /\ mp = loc ++ n :: rest.
End Spec.
Arguments table : clear implicits.
Arguments op : clear implicits.
Arguments outcome : clear implicits.

From Verif Require Import Subvol_Model.
(** The calls of the API and their visible replies; failing calls of mount return False or raise RatarmountError. *)
Section Run.
  Context {S : Type}.
  Definition perform (o : op S) (n : node S) : node S * outcome S :=
    match o with
    | OpMount path s => let '(n', r) := mount path s n in (n', Mounting match r with Ok b => b | Err _ => false end)
    | OpUnmount path => let '(n', r) := unmount path n in (n', Unmounting r)
    end.
  Fixpoint perform_all (ops : list (op S)) (n : node S) : node S * list (op S * outcome S) :=
    match ops with
    | [] => (n, [])
    | o :: r => let '(n1, a) := perform o n in let '(n2, l) := perform_all r n1 in (n2, (o, a) :: l)
    end.
End Run.

(** What the subvolume mount must show for a table. *)
Definition shows_mounts {U} (n : node (source U)) (t : table (source U)) : Prop :=
  forall mp s rest, In (mp, s) t -> Forall proper_name rest ->
    (forall v, sv_lookup (written (mp ++ rest)) v n = option_map (Inside (join $"/" mp)) (s_lookup s (written rest) v)) /\
    sv_versions (written (mp ++ rest)) n = s_versions s (written rest) /\
    sv_list (written (mp ++ rest)) n = Some (inr (s_list s (written rest))).
Definition shows_folders {U} (n : node (source U)) (t : table (source U)) : Prop :=
  forall loc, Forall proper_name loc -> (loc = [] \/ exists name, next_names t loc name) ->
    (forall v, sv_lookup (written loc) v n = Some FolderInfo) /\ sv_versions (written loc) n = 1%nat /\
    exists names, sv_list (written loc) n = Some (inl names) /\ NoDup names /\ forall name, In name names <-> next_names t loc name.
Definition shows_nothing_else {U} (n : node (source U)) (t : table (source U)) : Prop :=
  forall loc, Forall proper_name loc -> loc <> [] -> (forall mp s, In (mp, s) t -> ~ within mp loc /\ ~ within loc mp) ->
    (forall v, sv_lookup (written loc) v n = None) /\ sv_versions (written loc) n = O /\ sv_list (written loc) n = None.

(** Histories that also ask is_mountable. *)
Section Mixed.
  Context {S : Type}.
  Inductive action := Act (o : op S) | Ask (path : str).
  Fixpoint perform_mixed (acts : list action) (n : node S) : node S * list (op S * outcome S) :=
    match acts with
    | [] => (n, [])
    | Act o :: r => let '(n1, a) := perform o n in let '(n2, l) := perform_mixed r n1 in (n2, (o, a) :: l)
    | Ask path :: r => perform_mixed r (fst (is_mountable path n))
    end.
  (** Like [calls], but a mount may fail for any reason. *)
  Inductive calls_weak : table S -> list (op S * outcome S) -> table S -> Prop :=
  | WeakNil t : calls_weak t [] t
  | WeakCall t1 o r t2 l t3 : call t1 o r t2 -> calls_weak t2 l t3 -> calls_weak t1 ((o, r) :: l) t3
  | WeakFail t1 path s l t3 : calls_weak t1 l t3 -> calls_weak t1 ((OpMount path s, Mounting false) :: l) t3.
End Mixed.
Arguments action : clear implicits.
