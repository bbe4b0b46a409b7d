(** Dates and times as MS-DOS and ZIP archives store them. *)
From Coq Require Import ZArith List Lia.
From Verif Require Import FsTime_Spec.
Import ListNotations.
Local Open Scope Z_scope.

(** Seven bits of years since 1980, four of the month, five of the day; five bits of hours, six of minutes, five of half the seconds. *)
Definition dos_date (x : date) : Z := let '(y, m, d) := x in (y - 1980) * 512 + m * 32 + d.
Definition dos_time (h m s : Z) : Z := h * 2048 + m * 32 + s / 2.
Definition even (s : Z) : Prop := (2 | s).
(** What an entry stores stands for an instant, read as UTC. *)
Definition stores (entry : Z * Z) (t : Z) : Prop :=
  exists x h m s, instant t x h m s /\ 1980 <= fst (fst x) <= 2107 /\ even s /\ entry = (dos_date x, dos_time h m s).
