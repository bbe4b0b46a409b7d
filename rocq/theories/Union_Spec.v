(** Specification of union mounts. *)
From Coq Require Import Ascii String.
From Verif Require Import PyBase PyDict PyStr Path_Spec FileInfo Union_Model.
Local Open Scope Z_scope.

(** The version that a number selects from the versions [vs], oldest first: 1, 2, ... count from the oldest;
    0, -1, ... count back from the newest. *)
Definition pick {X} (vs : list X) (v : Z) : option X :=
  if v <=? 0 then nth_error (rev vs) (Z.to_nat (- v)) else nth_error vs (Z.to_nat (v - 1)).

Section Spec.
  Context {U : Type}.
  Implicit Types (m : source U) (sources : list (source U)).

  (** The source has the versions [vs] of [path] and numbers them consistently (C09 for index-based sources). *)
  Definition numbered (path : str) m (vs : list (finfo U)) : Prop :=
    s_versions m path = length vs /\ forall v, s_lookup m path v = pick vs v.

  (** The versions of all sources in order, each with the position of its source. *)
  Definition all_versions (vss : list (list (finfo U))) : list (nat * finfo U) :=
    concat (map (fun '(i, vs) => map (pair i) vs) (combine (seq 0 (length vss)) vss)).

  (** ** Sources that look like file systems *)
  Definition is_folder m (loc : location) : Prop :=
    loc = [] \/ exists info, s_lookup m (written loc) 0 = Some info /\ is_dir_mode (fi_mode info) = true.
  Definition nothing_at m (loc : location) : Prop :=
    s_versions m (written loc) = O /\ forall v, s_lookup m (written loc) v = None.
  Definition coherent m : Prop :=
    (forall loc n, In n (names_of (s_list m (written loc))) -> proper_name n) /\
    (forall loc n, Forall proper_name (loc ++ [n]) ->
       nothing_at m (loc ++ [n]) \/ (is_folder m loc /\ In n (names_of (s_list m (written loc))))).

  (** No source has a file (or an unreadable entry) where another one has a folder. *)
  Definition no_conflicts sources : Prop :=
    forall m1 m2 loc, In m1 sources -> In m2 sources -> loc <> [] -> Forall proper_name loc -> is_folder m1 loc ->
      is_folder m2 loc \/ nothing_at m2 loc.
End Spec.
