(** How a file is divided into frames. *)
From Verif Require Import PyBase.
Local Open Scope Z_scope.

(** Chunks of the given size, only the last may be shorter; none is empty. *)
Inductive divided {A} (size : Z) : list A -> list (list A) -> Prop :=
| divided_nil : divided size [] []
| divided_last c : c <> [] -> Z.of_nat (length c) <= size -> divided size c [c]
| divided_more c rest cs : Z.of_nat (length c) = size -> rest <> [] -> divided size rest cs -> divided size (c ++ rest) (c :: cs).
