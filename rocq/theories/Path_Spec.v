(** Specification: what a path denotes below a root folder. *)
From Coq Require Import Ascii String.
From Verif Require Import PyBase PyStr.

(** A location is the list of names on the way from the root. *)
Notation location := (list str).

(** Following one component: empty and "." stay, ".." goes to the parent (the root is its own parent), every other name
    is entered. *)
Definition enter (loc : location) (comp : str) : location :=
  if str_eqb comp [] then loc
  else if str_eqb comp $"." then loc
  else if str_eqb comp $".." then removelast loc
  else loc ++ [comp].

(** Where a path leads, starting at the root. *)
Definition denotes (path : str) : location := fold_left enter (split slash path) [].

(** A name a folder entry can have. *)
Definition proper_name (n : str) : Prop := n <> [] /\ n <> $"." /\ n <> $".." /\ ~ In slash n.

(** The canonical way to write a location. *)
Definition written (loc : location) : str := slash :: join $"/" loc.
