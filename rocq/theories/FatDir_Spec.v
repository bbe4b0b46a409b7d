(** How directories are stored on a FAT volume. *)
From Verif Require Import PyBase Fat_Model Fat_Spec FatDir_Model.
Local Open Scope Z_scope.

Definition low (x : Z) : Z := x mod 256.
Definition bytes16 (x : Z) : list Z := [x mod 256; x / 256 mod 256].
Definition bytes32 (x : Z) : list Z := bytes16 (x mod 65536) ++ bytes16 (x / 65536).

(** ** Long names: UTF-16, in parts of 13 units; an unfilled part is closed by a zero and filled up with 0xFFFF. *)
Definition utf16 (cps : list Z) : list Z :=
  concat (map (fun c => if c <? 65536 then [c] else [55296 + (c - 65536) / 1024; 56320 + (c - 65536) mod 1024]) cps).
(** Characters: code points without surrogates; neither NUL nor the noncharacter U+FFFF. *)
Definition is_char (c : Z) : Prop := 0 < c < 55296 \/ 57343 < c < 65535 \/ 65536 <= c <= 1114111.
Definition in_parts (name : list Z) (parts : list (list Z)) : Prop :=
  name <> [] /\ Forall is_char name /\ Forall (fun p => length p = 13%nat) parts /\ (length parts < 64)%nat /\
  (concat parts = utf16 name \/ exists k, concat parts = utf16 name ++ 0 :: repeat 65535 k).

(** ** Entries *)
Record entry := mkEntry { e_base : list Z; e_ext : list Z; e_parts : list (list Z); e_attr : Z; e_other : list Z; e_time : Z; e_date : Z; e_cluster : Z; e_size : Z }.

(** the short name in 11 bytes *)
Definition short_field (e : entry) : list Z :=
  let name := e_base e ++ repeat 32 (8 - length (e_base e)) ++ e_ext e ++ repeat 32 (3 - length (e_ext e)) in
  match name with b :: r => (if b =? 229 then 5 else b) :: r | [] => [] end.
(** the checksum of the short name: rotate to the right and add, in eight bits *)
Definition name_sum (name : list Z) : Z := fold_left (fun s b => ((s mod 2) * 128 + s / 2 + b) mod 256) name 0.
Definition unit_bytes (units : list Z) : list Z := concat (map bytes16 units).
(** the slot of the [i]-th part *)
Definition part_slot (sum : Z) (ordinal : Z) (part : list Z) : list Z :=
  [ordinal] ++ unit_bytes (firstn 5 part) ++ [15; 0; sum] ++ unit_bytes (firstn 6 (skipn 5 part)) ++ [0; 0] ++ unit_bytes (skipn 11 part).
(** The parts are stored in reverse; the ordinals start at 1 and the last part's is marked with 64. *)
Fixpoint part_slots (sum : Z) (i : Z) (parts : list (list Z)) : list (list Z) :=
  match parts with
  | [] => []
  | [p] => [part_slot sum (i + 64) p]
  | p :: r => part_slots sum (i + 1) r ++ [part_slot sum i p]
  end.
Definition entry_slot (e : entry) : list Z :=
  short_field e ++ [e_attr e] ++ e_other e ++ bytes16 (e_cluster e / 65536) ++ bytes16 (e_time e) ++ bytes16 (e_date e) ++ bytes16 (e_cluster e mod 65536) ++ bytes32 (e_size e).
Definition entry_slots (e : entry) : list (list Z) := part_slots (name_sum (short_field e)) 1 (e_parts e) ++ [entry_slot e].

Definition is_byte (b : Z) : Prop := 0 <= b < 256.
(** Short names consist of 1 to 8 and up to 3 bytes; the first is not a NUL; the attributes are not those of a long name. *)
Definition valid_entry (e : entry) : Prop :=
  (1 <= length (e_base e) <= 8)%nat /\ (length (e_ext e) <= 3)%nat /\ are_bytes (e_base e) /\ are_bytes (e_ext e) /\ hd 0 (e_base e) <> 0 /\ hd 0 (e_base e) <> 5 /\
  is_byte (e_attr e) /\ e_attr e mod 64 <> 15 /\ length (e_other e) = 8%nat /\ are_bytes (e_other e) /\
  0 <= e_time e < 65536 /\ 0 <= e_date e < 65536 /\ 0 <= e_cluster e < 4294967296 /\ 0 <= e_size e < 4294967296 /\
  (e_parts e = [] \/ exists name, in_parts name (e_parts e)).

(** A directory is a sequence of deleted slots and entries. *)
Inductive item := Deleted (rest : list Z) | Present (e : entry).
Definition valid_item (i : item) : Prop := match i with Deleted r => length r = 31%nat | Present e => valid_entry e end.
Definition item_slots (i : item) : list (list Z) := match i with Deleted r => [229 :: r] | Present e => entry_slots e end.
Definition items_bytes (items : list item) : list Z := concat (concat (map item_slots items)).
Definition present (items : list item) : list entry := concat (map (fun i => match i with Deleted _ => [] | Present e => [e] end) items).

(** Behind the items there is nothing, or a zero byte ends the directory: the rest of its last cluster can be anything, but clusters after that are zero. *)
Definition ended (cluster_size : Z) (rest : list Z) : Prop :=
  Z.of_nat (length rest) mod 32 = 0 /\
  (rest = [] \/ (exists r, rest = 0 :: r) /\ (Z.of_nat (length rest) <= cluster_size \/ Forall (eq 0) rest)).

(** ** What is to be seen *)
Section Seen.
  Variable oem : Z -> Z.
  Variable is_space : Z -> bool.
  Definition seen_short (e : entry) : list Z := map oem (e_base e) ++ (match e_ext e with [] => [] | x => 46 :: map oem x end).
  (** no blank at the end of both parts of the short name *)
  Definition no_blank_end (e : entry) : Prop :=
    (forall l b, e_base e = l ++ [b] -> is_space (oem b) = false) /\ (forall l b, e_ext e = l ++ [b] -> is_space (oem b) = false).
End Seen.

(** Times: seven bits for the years since 1980, four for the month, five for the day; five for the hour, six for the minute, five for half the second. *)
Definition date_field (y m d : Z) : Z := (y - 1980) * 512 + m * 32 + d.
Definition time_field (h m s : Z) : Z := h * 2048 + m * 32 + s / 2.
Definition month_length (y m : Z) : Z :=
  nth (Z.to_nat m) [0; 31; if (y mod 4 =? 0) && (negb (y mod 100 =? 0) || (y mod 400 =? 0)) then 29 else 28; 31; 30; 31; 30; 31; 31; 30; 31; 30; 31] 0.
Definition valid_date (y m d : Z) : Prop := 1980 <= y <= 2107 /\ 1 <= m <= 12 /\ 1 <= d <= month_length y m.
Definition valid_time (h m s : Z) : Prop := 0 <= h <= 23 /\ 0 <= m <= 59 /\ 0 <= s <= 59.

(** ** Directories on a volume *)

(** A volume with a table in it; its type is recognized (C79). *)
Definition readable_volume (image : list Z) (b : boot) : Prop :=
  boot_sector_of image b /\ valid_boot b /\ (b_fat_size16 b = 0 <-> type_of b = FAT32) /\
  (type_of b = FAT12 -> (sectors_in_all b - (b_reserved b + b_fats b * sectors_in_fat b)) / b_sectors_per_cluster b < 4085) /\
  (b_reserved b + sectors_in_fat b) * b_bytes_per_sector b <= Z.of_nat (length image).
Definition cluster_size (b : boot) : Z := b_sectors_per_cluster b * b_bytes_per_sector b.
(** the table without its last entry (C79) *)
Definition disk_table (image : list Z) (b : boot) : list Z := entries (type_of b) (fat_bytes image b) (entries_in (type_of b) (fat_bytes image b) - 1).
(** A directory in linked clusters. *)
Definition holds_dir (image : list Z) (b : boot) (first : Z) (items : list item) : Prop :=
  exists others rest, linked (type_of b) (disk_table image b) (first :: others) /\
    (forall c, In c (first :: others) -> 2 <= c /\ Z.of_nat (length (cluster_bytes image b c)) = cluster_size b) /\
    concat (map (cluster_bytes image b) (first :: others)) = items_bytes items ++ rest /\ ended (cluster_size b) rest.
(** The root directory is a directory in clusters on FAT32, and otherwise has its own area. *)
Definition root_start (b : boot) : Z := (b_reserved b + b_fats b * sectors_in_fat b) * b_bytes_per_sector b.
Definition holds_root (image : list Z) (b : boot) (items : list item) : Prop :=
  match type_of b with
  | FAT32 => exists first, stored_at image 44 4 first /\ holds_dir image b first items
  | _ => exists rest, firstn (Z.to_nat (32 * b_root_entries b)) (skipn (Z.to_nat (root_start b)) image) = items_bytes items ++ rest /\
           root_start b + 32 * b_root_entries b <= Z.of_nat (length image) /\ (rest = [] \/ exists r, rest = 0 :: r) /\ Z.of_nat (length rest) mod 32 = 0
  end.

(** ** What a reader of the directory gets

    [d] is what the driver gives for the entry: its short name, its long name if it has one, its attributes, first cluster, size and times. *)
Definition shows (oem : Z -> Z) (is_space : Z -> bool) (e : entry) (d : dentry) : Prop :=
  (no_blank_end oem is_space e -> short_name oem is_space d = seen_short oem e) /\ (e_parts e = [] -> long_name d = None) /\
  (forall name, in_parts name (e_parts e) -> long_name d = Some (Ok name)) /\
  d_attr d = e_attr e /\ get_cluster d = e_cluster e /\ d_size d = e_size e /\ d_wrtdate d = e_date e /\ d_wrttime d = e_time e.
