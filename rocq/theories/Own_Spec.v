(** What it means for a path to lie inside a mount point. *)
From Coq Require Import Ascii String.
From Verif Require Import PyBase PyStr Path_Spec.

(** An absolute path.  POSIX leaves the meaning of exactly two leading slashes to the system. *)
Definition absolute (p : str) : Prop := exists r, p = slash :: r.
Definition two_slashes (p : str) : Prop := exists r, p = slash :: slash :: r /\ forall r', r <> slash :: r'.

(** [path] names [rest] inside the folder at [base]. *)
Definition names_inside (base : location) (path : str) (rest : location) : Prop := denotes path = base ++ rest.

(** Does it lie inside at all? *)
Definition inside (base : location) (path : str) : Prop := exists rest, names_inside base path rest.
