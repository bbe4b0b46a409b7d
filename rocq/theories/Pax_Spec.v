(** Specification of how archivers write extended attributes into pax headers. *)
From Coq Require Import Ascii String.
From Verif Require Import PyBase PyStr.
Local Open Scope Z_scope.

(** RFC 4648: three bytes are four letters; the padding is left out. *)
Definition letter (n : Z) : ascii :=
  nth (Z.to_nat n) $"ABCDEFGHIJKLMNOPQRSTUVWXYZabcdefghijklmnopqrstuvwxyz0123456789+/" "?"%char.
Definition code (c : ascii) : Z := Z.of_nat (nat_of_ascii c).
Inductive base64 : str -> str -> Prop :=
| b64_0 : base64 [] []
| b64_1 a : base64 [a] [letter (code a / 4); letter (code a mod 4 * 16)]
| b64_2 a b : base64 [a; b] [letter (code a / 4); letter (code a mod 4 * 16 + code b / 16); letter (code b mod 16 * 4)]
| b64_3 a b c s t : base64 s t ->
    base64 (a :: b :: c :: s)
      (letter (code a / 4) :: letter (code a mod 4 * 16 + code b / 16) :: letter (code b mod 16 * 4 + code c / 64) :: letter (code c mod 64) :: t).

(** Percent encoding: each byte is itself (not '%') or '%' and two hexadecimal digits. *)
Definition hex_digit (n : Z) (c : ascii) : Prop :=
  c = nth (Z.to_nat n) $"0123456789ABCDEF" "?"%char \/ c = nth (Z.to_nat n) $"0123456789abcdef" "?"%char.
Inductive quoted : str -> str -> Prop :=
| quo_nil : quoted [] []
| quo_plain c s t : c <> "%"%char -> quoted s t -> quoted (c :: s) (c :: t)
| quo_hex c h l s t : hex_digit (code c / 16) h -> hex_digit (code c mod 16) l -> quoted s t -> quoted (c :: s) ("%"%char :: h :: l :: t).

(** The pax headers hold the attributes: under "SCHILY.xattr." with the plain value, under "LIBARCHIVE.xattr." with the encoded
    name and value, or under both, and nothing else is under these keys. *)
Definition holds_xattrs (pax_headers attrs : list (str * str)) : Prop :=
  (forall name value, In ($"SCHILY.xattr." ++ name, value) pax_headers -> In (name, value) attrs) /\
  (forall q b, In ($"LIBARCHIVE.xattr." ++ q, b) pax_headers -> exists name value, In (name, value) attrs /\ quoted name q /\ base64 value b) /\
  (forall name value, In (name, value) attrs ->
     In ($"SCHILY.xattr." ++ name, value) pax_headers \/
     exists q b, In ($"LIBARCHIVE.xattr." ++ q, b) pax_headers /\ quoted name q /\ base64 value b) /\
  NoDup (map fst pax_headers) /\ NoDup (map fst attrs).
