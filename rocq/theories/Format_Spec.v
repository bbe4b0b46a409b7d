(** Specification of the format detection. *)
From Coq Require Import Ascii String.
From Verif Require Import PyBase PyStr.
Local Open Scope Z_scope.

(** [s] stands in the file at offset [p]. *)
Definition stands_at (data : str) (p : Z) (s : str) : Prop := exists a b, data = a ++ s ++ b /\ Z.of_nat (length a) = p.

(** The number with the little-endian digits [s]. *)
Fixpoint value (s : str) : Z := match s with [] => 0 | c :: r => Z.of_nat (nat_of_ascii c) + 256 * value r end.
(** The file has the [n]-byte number [v] at offset [p]. *)
Definition has_number (data : str) (p : Z) (n : nat) (v : Z) : Prop := exists s, stands_at data p s /\ length s = n /\ value s = v.

(** A SquashFS superblock with version 4.0, a block size between 4 KiB and 1 MiB and a known compressor. *)
Definition superblock (data : str) (p : Z) : Prop :=
  stands_at data p $"hsqs" /\
  (exists log, 12 <= log <= 20 /\ has_number data (p + 12) 4 (2 ^ log) /\ has_number data (p + 22) 2 log) /\
  (exists compressor, compressor <= 6 /\ has_number data (p + 20) 2 compressor) /\
  has_number data (p + 28) 2 4 /\ has_number data (p + 30) 2 0.

(** From offset [p] on the file has complete skippable frames up to offset [q]: a number from 0x184D2A50 to 0x184D2A5F,
    the size of the frame and the frame. *)
Inductive skippable (data : str) : Z -> Z -> Prop :=
| no_frames p : skippable data p p
| one_frame p q kind size : 407710288 <= kind <= 407710303 -> has_number data p 4 kind -> has_number data (p + 4) 4 size ->
    skippable data (p + 8 + size) q -> skippable data p q.

(** White space in patterns for bytes: tab, line feed, vertical tab, form feed, carriage return and space. *)
Definition white (c : ascii) : Prop := In (nat_of_ascii c) [9; 10; 11; 12; 13; 32]%nat.
(** A tag that only HTML files have. *)
Definition tag (s : str) : Prop := exists c, (white c \/ c = ">"%char) /\
  (In s (map (fun w => $"<" ++ w ++ [c]) [$"head"; $"title"; $"html"; $"script"; $"style"; $"table"]) \/
   exists w, w <> [] /\ Forall white w /\ s = $"<a" ++ w ++ $"href" ++ [c]).
(** Letters in lower case. *)
Definition low (c : ascii) : ascii :=
  let n := nat_of_ascii c in if (Nat.leb 65 n && Nat.leb n 90)%bool then ascii_of_nat (n + 32) else c.
Definition html (head : str) : Prop :=
  ~ In (ascii_of_nat 0) head /\ exists s, (s = $"<!doctype html" \/ tag s) /\ exists p, stands_at (map low head) p s.

(** The published signatures of formats that are recognized by their first bytes alone, with the number of the format. *)
Definition signatures : list (Z * list nat) := [
  (257, [55; 122; 188; 175; 39; 28]%nat) (* 7z *); (258, [82; 97; 114; 33; 26; 7]%nat) (* RAR *);
  (260, [83; 81; 76; 105; 116; 101; 32; 102; 111; 114; 109; 97; 116; 32; 51; 0]%nat) (* SQLite *); (261, [77; 83; 67; 70]%nat) (* CAB *);
  (262, [60; 97; 105; 97; 102; 102; 62; 10]%nat) (* AIX *); (263, [33; 60; 97; 114; 99; 104; 62; 10]%nat) (* ar *); (272, [33; 60; 116; 104; 105; 110; 62; 10]%nat) (* thin ar *);
  (264, [120; 97; 114; 33]%nat) (* xar *); (4098, [31; 139]%nat) (* gzip *); (4099, [253; 55; 122; 88; 90; 0]%nat) (* xz *);
  (4129, [71; 82; 90; 105; 112; 73; 73; 0; 2; 4; 58; 41]%nat) (* GRZip *); (4130, [76; 82; 90; 73; 0]%nat) (* lrzip *); (4131, [76; 90; 73; 80; 1]%nat) (* lzip *);
  (4103, [93; 0; 0]%nat) (* LZMA *); (4132, [137; 76; 90; 79; 0; 13; 10; 26; 10]%nat) (* lzop *); (4133, [237; 171; 238; 219]%nat) (* RPM *);
  (4134, [98; 101; 103; 105; 110; 32]%nat) (* uuencode *); (4135, [31; 157]%nat) (* compress *); (2306, [87; 65; 82; 67; 47; 49; 46]%nat) (* WARC/1. *);
  (2308, [37; 80; 68; 70; 45]%nat) (* PDF *); (4354, [26; 69; 223; 163]%nat) (* Matroska *); (4356, [46; 82; 77; 70]%nat) (* RMVB *); (4357, [79; 103; 103; 83; 0]%nat) (* Ogg *)]%Z.
