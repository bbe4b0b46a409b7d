(** Specification of file hashes. *)
From Coq Require Import Ascii String.
From Verif Require Import PyBase PyDict PyStr FileInfo Index_Model Xattr_Spec Hash_Model.
Local Open Scope Z_scope.

(** File objects may return fewer bytes than asked for, but at least one if there is one. *)
Definition legal (cut : nat -> Z -> Z) : Prop := forall k available, 1 <= available -> 1 <= cut k available <= available.
(** ... or all that are available. *)
Definition full (cut : nat -> Z -> Z) : Prop := forall k available, cut k available = available.

(** Hash objects: updating with two pieces is updating with their concatenation, updating with nothing changes nothing. *)
Definition streaming {S_ : Type} (update_ : S_ -> str -> S_) : Prop := 
  (forall s a b, update_ (update_ s a) b = update_ s (a ++ b)) /\ forall s, update_ s [] = s.

(** The number a string of hexadecimal digits stands for. *)
Definition digit_value (c : ascii) : option Z :=
  let n := Z.of_nat (nat_of_ascii c) in
  if (48 <=? n) && (n <=? 57) then Some (n - 48) else if (97 <=? n) && (n <=? 102) then Some (n - 87) else None.
Fixpoint hex_value_from (acc : Z) (s : str) : option Z :=
  match s with [] => Some acc | c :: r => match digit_value c with Some d => hex_value_from (16 * acc + d) r | None => None end end.
Definition hex_value (s : str) : option Z := hex_value_from 0 s.

(** The sum of the bytes, each at its place in a little-endian 64-bit word. *)
Fixpoint words_sum (i : Z) (data : str) : Z :=
  match data with [] => 0 | c :: r => Z.of_nat (nat_of_ascii c) * 256 ^ (i mod 8) + words_sum (i + 1) r end.

(** The hash of SMPlayer: file size, words of the first 64 KiB and words of the last 64 KiB, where the second part starts after
    the first one in files with less than 128 KiB. *)
Definition tail_start (size : Z) : Z := if size <=? 65536 then size else if size <=? 131072 then 65536 else size - 65536.
Definition smplayer_spec (content : str) : Z :=
  let size := Z.of_nat (length content) in
  (size + words_sum 0 (firstn (Z.to_nat 65536) content) + words_sum 0 (skipn (Z.to_nat (tail_start size)) content)) mod 2 ^ 64.

(** ** Stored hashes *)

(** The rows that are hashed. *)
Definition eligible (r : row) : Prop := Z.land (r_mode r) 61440 = 32768 /\ r_isgenerated r = false.
(** No other file has the same number. *)
Definition own_number (files : list row) (r : row) : Prop :=
  forall r', In r' files -> eligible r' -> r_offsetheader r' = r_offsetheader r -> r' = r.

(** The attributes after interrupted runs of the hashing: [run h w] says that a complete run may write [w] if the attributes
    written so far are [h]; an interrupted run writes only a part of it. *)
Inductive interrupted (run : list (Z * str * str) -> list (Z * str * str) -> Prop) : list (Z * str * str) -> list (Z * str * str) -> Prop :=
| not_started h : interrupted run h h
| run_cut h h' done rest : interrupted run h h' -> run h' (done ++ rest) -> interrupted run h (h' ++ done).
