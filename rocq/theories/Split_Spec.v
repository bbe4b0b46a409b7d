(** Specification of numbered suffixes. *)
From Coq Require Import Ascii String.
From Verif Require Import PyBase PyStr.

(** The number written with these digits, the most significant one first. *)
Definition number (b : nat) (digits : list nat) : nat := fold_left (fun a d => a * b + d) digits 0.

(** [s] is the number [i] written with the digits of [alphabet], filled up with zeros to the width [w], which it exceeds only if it has to. *)
Definition numeral (alphabet : str) (w i : nat) (s : str) : Prop :=
  exists digits, Forall (fun d => d < length alphabet) digits /\ number (length alphabet) digits = i /\
    s = map (fun d => nth d alphabet "?"%char) digits /\
    (length digits = max 1 w \/ max 1 w < length digits /\ hd 0 digits <> 0).

(** The suffixes [l] are those of consecutive numbers from 0 on, or, if 0 does not exist, from 1 on, as far as they exist. *)
Definition counted (alphabet : str) (w : nat) (exist : str -> Prop) (l : list str) : Prop :=
  exists start, start <= 1 /\ (start = 0 <-> exists s, numeral alphabet w 0 s /\ exist s) /\
    (forall k s, nth_error l k = Some s -> numeral alphabet w (start + k) s) /\
    Forall exist l /\
    (forall s, numeral alphabet w (start + length l) s -> ~ exist s).

(** The numbering systems with their digits. *)
Definition systems : list (str * str) :=
  [($"a", $"abcdefghijklmnopqrstuvwxyz"); ($"0", $"0123456789"); ($"x", $"0123456789abcdef")].

(** Both are not empty and written in the same alphabet. *)
Definition same_kind (a b : str) : Prop :=
  a <> [] /\ b <> [] /\ exists f alphabet, In (f, alphabet) systems /\ incl a alphabet /\ incl b alphabet.

(** The suffix [e] exists next to the file [stem.own]. *)
Definition sibling (candidates : list str) (stem own e : str) : Prop :=
  In (stem ++ "."%char :: e) candidates /\ same_kind e own.
