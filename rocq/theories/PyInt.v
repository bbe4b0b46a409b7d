(** Python's conversions between integers and decimal strings. *)
From Coq Require Import Ascii String DecimalString DecimalZ DecimalNat DecimalFacts DecimalPos.
From Verif Require Import PyBase PyStr.

(** [str(z)] for an integer. *)
Definition py_str (z : Z) : str := list_ascii_of_string (NilZero.string_of_int (Z.to_int z)).

(** [int(s)] for strings made of ASCII digits with an optional minus sign, [None] (ValueError) otherwise.  Simplification:
    Python also accepts white space around the digits, a plus sign, underscores between digits and other Unicode digits.
    The empty string and "-" are rejected. *)
Definition py_int (s : str) : option Z := option_map Z.of_int (NilZero.int_of_string (string_of_list_ascii s)).

Definition is_digit (c : ascii) : bool := (48 <=? nat_of_ascii c)%nat && (nat_of_ascii c <=? 57)%nat.

Lemma py_int_str z : py_int (py_str z) = Some z.
Proof.
  unfold py_int, py_str. rewrite string_of_list_ascii_of_string.
  assert (H : NilZero.int_of_string (NilZero.string_of_int (Z.to_int z)) = Some (Z.to_int z)).
  { rewrite NilZero.isi; [reflexivity| |]; destruct z; cbn; try discriminate;
      intros E; injection E as E; revert E; apply DecimalPos.Unsigned.to_uint_nonnil. }
  rewrite H. cbn. now rewrite DecimalZ.of_to.
Qed.

Lemma py_str_inj a b : py_str a = py_str b -> a = b.
Proof. intros H. apply (f_equal py_int) in H. rewrite !py_int_str in H. now injection H. Qed.

Lemma uint_chars d : Forall (fun c => is_digit c = true) (list_ascii_of_string (NilEmpty.string_of_uint d)).
Proof. induction d; cbn; constructor; auto. Qed.

Lemma nonneg_chars z : (0 <= z)%Z -> py_str z <> [] /\ Forall (fun c => is_digit c = true) (py_str z).
Proof.
  intros H. destruct z as [|p|p]; [split; [discriminate|repeat constructor]| |lia]. unfold py_str. cbn [Z.to_int NilZero.string_of_int].
  unfold NilZero.string_of_uint. destruct (Pos.to_uint p) eqn:E; [exfalso; now apply (DecimalPos.Unsigned.to_uint_nonnil p)|..];
    (split; [discriminate|]); rewrite <- E; rewrite E; apply (uint_chars (_ _)) || (rewrite <- E; apply uint_chars).
Qed.

(** Nothing but digits and a leading minus sign. *)
Lemma py_str_form z : exists d, d <> [] /\ Forall (fun c => is_digit c = true) d /\ (py_str z = d \/ py_str z = "-"%char :: d).
Proof.
  destruct (Z.le_gt_cases 0 z) as [H|H].
  - destruct (nonneg_chars z H) as [H1 H2]. exists (py_str z). auto.
  - destruct (nonneg_chars (- z) ltac:(lia)) as [H1 H2]. exists (py_str (- z)). split; [assumption|]. split; [assumption|]. right.
    destruct z; try lia. reflexivity.
Qed.

Lemma py_str_char z c : In c (py_str z) -> is_digit c = true \/ c = "-"%char.
Proof.
  destruct (py_str_form z) as (d & _ & Hd & E). rewrite Forall_forall in Hd. destruct E as [E|E]; rewrite E; [auto|]. intros [<-|H]; auto.
Qed.
Lemma py_str_nonempty z : py_str z <> [].
Proof. destruct (py_str_form z) as (d & Hn & _ & [E|E]); rewrite E; [assumption|discriminate]. Qed.
