(** Specification of the .versions folders and of hard links. *)
From Coq Require Import Ascii String.
From Verif Require Import PyBase PyDict PyStr PyInt Path_Spec FileInfo Union_Model Union_Spec Version_Model.
Local Open Scope Z_scope.

(** A path with explicit versions is spelled from steps: "name" or "name.versions/k". *)
Inductive step := Plain (n : str) | AtVersion (n : str) (k : Z).
Definition name_of (s : step) : str := match s with Plain n => n | AtVersion n _ => n end.
Definition spelled (s : step) : list str :=
  match s with Plain n => [n] | AtVersion n k => [n ++ $".versions"; py_str k] end.
Definition version_of (s : step) : Z := match s with Plain _ => 0 | AtVersion _ k => k end.

Section Spec.
  Context {U : Type}.
  Variable m : source U.

  Definition exists_at (loc : location) : Prop := exists i, s_lookup m (written loc) 0 = Some i.
  (** Every step's entry exists; the special names do not collide with real entries. *)
  Inductive good_steps : location -> list step -> Prop :=
  | GNil loc : good_steps loc []
  | GPlain loc n rest : proper_name n -> exists_at (loc ++ [n]) -> good_steps (loc ++ [n]) rest -> good_steps loc (Plain n :: rest)
  | GVersion loc n k rest : proper_name n -> exists_at (loc ++ [n]) -> ~ exists_at (loc ++ [n ++ $".versions"]) ->
      good_steps (loc ++ [n]) rest -> good_steps loc (AtVersion n k :: rest).

  (** Entries have parents, and only what exists is listed. *)
  Definition parents_exist : Prop := forall loc n, loc <> [] -> Forall proper_name (loc ++ [n]) -> exists_at (loc ++ [n]) -> exists_at loc.
  Definition only_existing_listed : Prop :=
    forall loc, loc <> [] -> Forall proper_name loc -> ~ exists_at loc -> s_list m (written loc) = LNone /\ s_list_mode m (written loc) = LNone.

  (** Neither a regular file nor a symbolic link although it has a link target. *)
  Definition hard_link (i : finfo U) : Prop := is_reg_mode (fi_mode i) = false /\ is_lnk_mode (fi_mode i) = false /\ fi_linkname i <> [].

  (** One hop from an entry (at a path and version) to the target of the hard link: relative to the mount point of the link,
      the newest version of another path, the next version of the same path. *)
  Inductive hop (mount_point : finfo U -> str) : str * Z * finfo U -> str * Z * finfo U -> Prop :=
  | Hop p v i p' v' i' :
      hard_link i ->
      p' = path_join (mount_point i) (lstrip slash (fi_linkname i)) ->
      (p' <> p -> v' = 0) -> (p' = p -> v' = v + 1) ->
      s_lookup m p' v' = Some i' ->
      hop mount_point (p, v, i) (p', v', i').
  Inductive hops (mount_point : finfo U -> str) : nat -> str * Z * finfo U -> str * Z * finfo U -> Prop :=
  | HopsO e : hops mount_point 0 e e
  | HopsS n e1 e2 e3 : hop mount_point e1 e2 -> hops mount_point n e2 e3 -> hops mount_point (S n) e1 e3.
End Spec.
