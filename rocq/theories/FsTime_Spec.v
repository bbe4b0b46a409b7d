(** The calendar, and how FTP servers write times. *)
From Coq Require Import ZArith List Lia.
Import ListNotations.
Local Open Scope Z_scope.

Definition date : Type := Z * Z * Z.
Definition leap_year (y : Z) : Prop := (4 | y) /\ (~ (100 | y) \/ (400 | y)).
(** [last y m d]: [d] is the last day of the month [m] of the year [y]. *)
Definition last (y m d : Z) : Prop :=
  (In m [1; 3; 5; 7; 8; 10; 12] /\ d = 31) \/ (In m [4; 6; 9; 11] /\ d = 30) \/ (m = 2 /\ leap_year y /\ d = 29) \/ (m = 2 /\ ~ leap_year y /\ d = 28).
Definition is_date (x : date) : Prop := let '(y, m, d) := x in exists n, last y m n /\ 1 <= d <= n.
(** One day is the day after another. *)
Inductive next_day : date -> date -> Prop :=
| next_in_month y m d : ~ last y m d -> next_day (y, m, d) (y, m, d + 1)
| next_month y m d : last y m d -> m <> 12 -> next_day (y, m, d) (y, m + 1, 1)
| next_year y : next_day (y, 12, 31) (y + 1, 1, 1).
(** The number of days from 1970-01-01 to a day, found by going day by day, in either direction. *)
Inductive day_number : Z -> date -> Prop :=
| epoch : day_number 0 (1970, 1, 1)
| one_later n x x' : day_number n x -> next_day x x' -> day_number (n + 1) x'
| one_earlier n x x' : day_number n x' -> is_date x -> next_day x x' -> day_number (n - 1) x.
(** An instant: seconds since 1970-01-01 00:00:00 UTC, without leap seconds, and what calendar and clock show at it in UTC. *)
Definition instant (t : Z) (x : date) (h m s : Z) : Prop :=
  exists n, day_number n x /\ 0 <= h < 24 /\ 0 <= m < 60 /\ 0 <= s < 60 /\ t = n * 86400 + h * 3600 + m * 60 + s.

(** The fact [modify] of RFC 3659: fourteen digits, in UTC, perhaps with a fraction. *)
Definition two (n : Z) : list Z := [48 + n / 10; 48 + n mod 10].
Definition four (n : Z) : list Z := two (n / 100) ++ two (n mod 100).
Definition ftp_time (x : date) (h m s : Z) : list Z := let '(y, mo, d) := x in four y ++ two mo ++ two d ++ two h ++ two m ++ two s.
