(** Specification of TAR archives as bytes: numerals, pax records, entries and their layout. *)
From Coq Require Import Ascii String Sorting.Sorted.
From Verif Require Import PyBase PyStr.
Local Open Scope Z_scope.

(** The character of a digit, and [numeral base s n]: the string of digits [s] is the number [n] in the given base. *)
Definition digit (d : nat) : ascii := ascii_of_nat (48 + d).
Inductive numeral (base : nat) : str -> Z -> Prop :=
| num_nil : numeral base [] 0
| num_snoc s n d : numeral base s n -> (d < base)%nat -> numeral base (s ++ [digit d]) (Z.of_nat base * n + Z.of_nat d).

Definition zeros (n : nat) : str := repeat "000"%char n.

(** A pax record: "<length> <keyword>=<value>\n", where the length counts the whole record. *)
Definition pax_record (keyword value record : str) : Prop :=
  exists length_, record = length_ ++ $" " ++ keyword ++ $"=" ++ value ++ ["010"%char] /\
    numeral 10 length_ (len record) /\ (1 <= length length_ <= 20)%nat /\ keyword <> [] /\ ~ In "="%char keyword.

(** [announces records size]: what the records say about the size; the last record counts. *)
Inductive announces : list (str * str) -> option Z -> Prop :=
| ann_nil : announces [] None
| ann_other l k v s : announces l s -> k <> $"size" -> announces (l ++ [(k, v)]) s
| ann_size l v s n : announces l s -> (1 <= length v <= 20)%nat -> numeral 10 v n -> announces (l ++ [($"size", v)]) (Some n).

(** The contents of a pax header: records, filled up with NUL. *)
Definition pax_contents (data : str) (size : option Z) : Prop :=
  exists records rendered k, Forall2 (fun '(key, value) r => pax_record key value r) records rendered /\
    announces records size /\ data = concat rendered ++ zeros k.

(** An entry of an archive: how many blocks of zeros precede it, the header block, the data blocks. *)
Record entry := mkEntry { e_zeros : nat; e_head : str; e_data : str }.
Definition flag (e : entry) : ascii := nth 156 (e_head e) "000"%char.

(** The size field of a header: 12 bytes, octal digits followed by spaces and NULs, or nothing but NULs (size 0). *)
Definition size_field (head : str) (n : Z) : Prop :=
  exists before digits spaces k after, head = before ++ digits ++ repeat " "%char spaces ++ zeros k ++ after /\
    length before = 124%nat /\ (length digits + spaces + k = 12)%nat /\ numeral 8 digits n /\ (digits = [] -> spaces = 0%nat).

(** [laid_out announced es]: the entries are well-formed; the first one has the size that [announced] gives if its own size field
    is zero. *)
Inductive laid_out : option Z -> list entry -> Prop :=
| laid_nil a : laid_out a []
| laid_cons a e es stored size a' :
    length (e_head e) = 512%nat -> (exists c, In c (e_head e) /\ c <> "000"%char) ->
    size_field (e_head e) stored ->
    (stored <> 0 /\ size = stored \/ stored = 0 /\ match a with Some n => size = n | None => size = 0 end) ->
    (exists blocks, length (e_data e) = (512 * blocks)%nat /\ 0 <= size /\ 512 * (Z.of_nat blocks - 1) < size <= 512 * Z.of_nat blocks) ->
    (if in_dec ascii_dec (flag e) ["x"; "g"; "X"]%char then pax_contents (e_data e) a' else a' = None) ->
    laid_out a' es -> laid_out a (e :: es).

Definition bytes_of (e : entry) : str := zeros (512 * e_zeros e) ++ e_head e ++ e_data e.
Definition archive (es : list entry) (tail : str) : str := concat (map bytes_of es) ++ tail.

(** The end of an archive: the file ends, or two blocks of zeros (or one and the end of the file).  If zeros are to be ignored,
    only the end of the file counts. *)
Definition ends_archive (ignore_zeros : bool) (tail : str) : Prop :=
  exists k rest, tail = zeros (512 * k) ++ rest /\
    ((length rest < 512)%nat \/ ignore_zeros = false /\ (2 <= k)%nat).

(** Where the header of an entry that comes after the entries [before] is. *)
Definition header_at (before : list entry) (e : entry) : Z := len (concat (map bytes_of before)) + 512 * Z.of_nat (e_zeros e).

(** An entry is a place to cut the archive if it is the first one or comes right after a regular file. *)
Definition cut_here (before : list entry) : Prop := before = [] \/ exists b p, before = b ++ [p] /\ flag p = "0"%char.

(** The path that tarfile reports for a member.  A header has a name field and a prefix field; the first NUL ends a field. *)
Definition field (width : nat) (s bytes : str) : Prop :=
  length bytes = width /\ ~ In "000"%char s /\ (bytes = s \/ exists r, bytes = s ++ "000"%char :: r).
Definition header_fields (head name prefix : str) : Prop :=
  exists n m p t, head = n ++ m ++ p ++ t /\ length m = 245%nat /\ field 100 name n /\ field 155 prefix p /\ length head = 512%nat.

(** A member with its first header at [offset]: a plain header, or a GNU "@LongLink" entry and then the header of the member. *)
Inductive member_at (file : str) (offset : Z) : str -> str -> bool -> Prop :=
| plain head name prefix : 0 <= offset -> zslice file offset 512 = head -> header_fields head name prefix -> name <> $"././@LongLink" ->
    member_at file offset name prefix false
| after_long head name prefix long_head p n blocks : 0 <= offset -> zslice file offset 512 = long_head -> header_fields long_head $"././@LongLink" p ->
    size_field long_head n -> 0 < n -> 512 * (blocks - 1) < n <= 512 * blocks ->
    zslice file (offset + 512 + 512 * blocks) 512 = head -> header_fields head name prefix ->
    member_at file offset name prefix true.
