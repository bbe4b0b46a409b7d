(** The versions of a path in a TAR archive. *)
From Coq Require Import Ascii String.
From Verif Require Import PyBase PyStr Path_Spec Tar_Model TarRead_Spec.
Local Open Scope Z_scope.

(** The members at a location, in the order of the archive: tar appends, so that the oldest one is first. *)
Fixpoint versions_at (transform : str -> str) (l : list (nat * member * list block)) (loc : location) : list (nat * member * list block) :=
  match l with
  | [] => []
  | (pos, m, body) :: l =>
      if list_eq_dec (list_eq_dec ascii_dec) (location_of transform [] m) loc
      then (pos, m, body) :: versions_at transform l loc else versions_at transform l loc
  end.

(** A location with no folder of incremental dumps (type D) at it, and with nothing below it. *)
Definition leaf (transform : str -> str) (l : list (nat * member * list block)) (loc : location) : Prop :=
  none_below transform l loc /\ forall pos m body, In (pos, m, body) l -> location_of transform [] m = loc -> m_type m <> "D"%char.

(** No member is at or below the location. *)
Definition nothing_at (transform : str -> str) (l : list (nat * member * list block)) (loc : location) : Prop :=
  forall pos m body rest, In (pos, m, body) l -> location_of transform [] m <> loc ++ rest.
