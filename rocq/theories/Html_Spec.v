(** Specification for files embedded in HTML documents: how tags are written, where characters are, and how data URLs are made. *)
From Coq Require Import Ascii String.
From Verif Require Import PyBase.
Local Open Scope Z_scope.

Definition letters (s : string) : list Z := map (fun c => Z.of_nat (nat_of_ascii c)) (list_ascii_of_string s).

(** An attribute as it is written: white space, a name, and perhaps white space, "=", white space and a value, quoted or not. *)
Record attribute := mkAttribute { a_space : list Z; a_name : list Z; a_value : option (list Z * list Z * option Z * list Z) }.

Definition write_attribute (a : attribute) : list Z :=
  a_space a ++ a_name a ++
  match a_value a with
  | None => []
  | Some (s1, s2, Some q, v) => s1 ++ [61] ++ s2 ++ [q] ++ v ++ [q]
  | Some (s1, s2, None, v) => s1 ++ [61] ++ s2 ++ v
  end.
(** What is written of an attribute in front of its value. *)
Definition up_to_value (a : attribute) : list Z :=
  a_space a ++ a_name a ++
  match a_value a with
  | None => []
  | Some (s1, s2, Some q, _) => s1 ++ [61] ++ s2 ++ [q]
  | Some (s1, s2, None, _) => s1 ++ [61] ++ s2
  end.
Definition write_tag (name : list Z) (attrs : list attribute) (tail : list Z) : list Z := 60 :: name ++ concat (map write_attribute attrs) ++ tail.

Definition blank (c : Z) : Prop := c = 32 \/ c = 9 \/ c = 10 \/ c = 13 \/ c = 12.
Definition lower_letter (c : Z) : Prop := 97 <= c <= 122.
Definition upper_letter (c : Z) : Prop := 65 <= c <= 90.
Definition name_char (c : Z) : Prop := lower_letter c \/ upper_letter c \/ 48 <= c <= 57 \/ c = 45 \/ c = 46.
(** A letter, then letters, digits, hyphens and periods. *)
Definition name_ok (n : list Z) : Prop := exists c r, n = c :: r /\ (lower_letter c \/ upper_letter c) /\ Forall name_char r.

Definition attribute_ok (a : attribute) : Prop :=
  a_space a <> [] /\ Forall blank (a_space a) /\ name_ok (a_name a) /\
  match a_value a with
  | None => True
  | Some (s1, s2, quote, v) => Forall blank s1 /\ Forall blank s2 /\ exists q, quote = Some q /\ (q = 34 \/ q = 39) /\ ~ In q v
  end.

(** What follows the attributes: perhaps white space, then ">" or "/". *)
Definition tail_ok (t : list Z) : Prop := exists s c r, t = s ++ c :: r /\ Forall blank s /\ (c = 62 \/ c = 47).

Definition value_of (a : attribute) : option (list Z) := match a_value a with Some (_, _, _, v) => Some v | None => None end.

(** What Python's HTMLParser reports for an attribute: the name in lower case, and the value (if it has no character references). *)
Definition lower (n : list Z) : list Z := map (fun c => if (65 <=? c) && (c <=? 90) then c + 32 else c) n.
Definition reported (a : attribute) : list Z * option (list Z) := (lower (a_name a), value_of a).

(** A data URL with something behind its comma. *)
Definition embeds (v : list Z) : Prop := exists x y z, v = letters "data:" ++ x ++ 44 :: y :: z /\ ~ In 44 x.

(** The part of a text between two offsets. *)
Definition between {A} (s : list A) (b e : Z) : list A := firstn (Z.to_nat (e - b)) (skipn (Z.to_nat b) s).

(** The line, counted from 1, and the column, from 0, of the end of a text. *)
Fixpoint position (s : list Z) (line column : Z) : Z * Z :=
  match s with [] => (line, column) | c :: r => if c =? 10 then position r (line + 1) 0 else position r line (column + 1) end.

(** Base64 *)
Definition b64_char (v : Z) : Z := if v <? 26 then 65 + v else if v <? 52 then 71 + v else if v <? 62 then v - 4 else if v =? 62 then 43 else 47.
Fixpoint b64_encode (bytes : list Z) : list Z :=
  match bytes with
  | a :: b :: c :: r => b64_char (a / 4) :: b64_char (a mod 4 * 16 + b / 16) :: b64_char (b mod 16 * 4 + c / 64) :: b64_char (c mod 64) :: b64_encode r
  | [a; b] => [b64_char (a / 4); b64_char (a mod 4 * 16 + b / 16); b64_char (b mod 16 * 4); 61]
  | [a] => [b64_char (a / 4); b64_char (a mod 4 * 16); 61; 61]
  | [] => []
  end.
Definition b64_alphabet (c : Z) : Prop := lower_letter c \/ upper_letter c \/ 48 <= c <= 57 \/ c = 43 \/ c = 47 \/ c = 61.

(** [s] with any number of characters outside the alphabet, like line feeds, put in between. *)
Inductive interspersed : list Z -> list Z -> Prop :=
| interspersed_nil : interspersed [] []
| interspersed_keep c s t : interspersed s t -> interspersed (c :: s) (c :: t)
| interspersed_add c s t : ~ b64_alphabet c -> interspersed s t -> interspersed s (c :: t).

(** A media type: no semicolon, comma or quote, and a slash inside. *)
Definition plain_char (c : Z) : Prop := c <> 59 /\ c <> 44 /\ c <> 34 /\ c <> 39.
Definition media_type (m : list Z) : Prop := Forall plain_char m /\ exists a b, m = a ++ 47 :: b /\ a <> [] /\ b <> [].

(** Parameters of a data URL, each behind a semicolon. *)
Definition write_parameters (ps : list (list Z)) : list Z := concat (map (fun p => 59 :: p) ps).
