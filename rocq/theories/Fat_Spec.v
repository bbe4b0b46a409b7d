(** What a FAT file system stores. *)
From Verif Require Import PyBase MemFile_Spec Fat_Model.
Local Open Scope Z_scope.

(** ** Tables *)

(** The bytes of a table are one little-endian number, in which the entries lie next to each other, 12, 16 or 32 bits each; of 32 bits
    the upper four are reserved. *)
Definition number (bytes : list Z) : Z := fold_right (fun b n => b + 256 * n) 0 bytes.
Definition entry_bits (t : fat_type) : Z := match t with FAT12 => 12 | FAT16 => 16 | FAT32 => 32 end.
Definition used_bits (t : fat_type) : Z := match t with FAT12 => 12 | FAT16 => 16 | FAT32 => 28 end.
Definition stored_entry (t : fat_type) (bytes : list Z) (c : nat) : Z :=
  number bytes / 2 ^ (entry_bits t * Z.of_nat c) mod 2 ^ used_bits t.
(** How many whole entries there are. *)
Definition entries_in (t : fat_type) (bytes : list Z) : Z := 8 * Z.of_nat (length bytes) / entry_bits t.
Definition are_bytes (bytes : list Z) : Prop := Forall (fun b => 0 <= b < 256) bytes.

(** ** Chains *)

(** A value that ends a chain, and the number of a data cluster. *)
Definition ends_chain (t : fat_type) (v : Z) : Prop :=
  match t with FAT12 => 4088 <= v <= 4095 \/ v = 4080 | FAT16 => 65528 <= v <= 65535 | FAT32 => 268435448 <= v <= 268435455 end.
Definition data_cluster (t : fat_type) (v : Z) : Prop := 2 <= v <= match t with FAT12 => 4079 | FAT16 => 65519 | FAT32 => 268435439 end.
Definition value_at (table : list Z) (c v : Z) : Prop := 0 <= c /\ nth_error table (Z.to_nat c) = Some v.
Inductive linked (t : fat_type) (table : list Z) : list Z -> Prop :=
| linked_last c v : value_at table c v -> ends_chain t v -> linked t table [c]
| linked_next c d rest : value_at table c d -> data_cluster t d -> linked t table (d :: rest) -> linked t table (c :: d :: rest).

(** ** Files *)
Section File.
  Context {A : Type}.
  (** A file of [content] starts at cluster [first]: its clusters are linked and hold the content, possibly followed by other bytes. *)
  Definition holds_file (read_cluster : Z -> list A) (t : fat_type) (table : list Z) (bytes_per_cluster first : Z) (content : list A) : Prop :=
    content = [] \/
    exists rest slack, linked t table (first :: rest) /\ (forall c, In c (first :: rest) -> Z.of_nat (length (read_cluster c)) = bytes_per_cluster) /\
      concat (map read_cluster (first :: rest)) = content ++ slack.

  (** An in-memory file in which seeks beyond the end stop at the end. *)
  Definition capped_call (content : list A) (pos : Z) (c : call) : answer A * Z :=
    match c with
    | CSeek o w => let p := Z.min (target content pos o w) (Z.of_nat (length content)) in (AnsPos p, p)
    | c => mem_call content pos c
    end.
  Fixpoint capped_run (content : list A) (pos : Z) (cs : list call) : list (answer A) :=
    match cs with
    | [] => []
    | c :: r => let '(a, pos') := capped_call content pos c in a :: capped_run content pos' r
    end.
  Fixpoint capped_no_negative (content : list A) (pos : Z) (cs : list call) : Prop :=
    match cs with
    | [] => True
    | c :: r => match c with CSeek o w => 0 <= target content pos o w | _ => True end /\ capped_no_negative content (snd (capped_call content pos c)) r
    end.

  Definition whence_of (w : origin) : Z := match w with FromStart => 0 | FromCurrent => 1 | FromEnd => 2 end.
  Fixpoint fat_run (read_cluster : Z -> list A) t table bytes_per_cluster first filesize (st : fat_state) (cs : list call) : list (answer A) :=
    match cs with
    | [] => []
    | CSeek o w :: cs => match fat_seek t table bytes_per_cluster first filesize st o (whence_of w) with
                         | Ok (p, st) => AnsPos p :: fat_run read_cluster t table bytes_per_cluster first filesize st cs
                         | Err _ => [AnsRejected]
                         end
    | CRead n :: cs => match fat_read read_cluster t table bytes_per_cluster first filesize st n with
                       | Ok (d, st) => AnsData d :: fat_run read_cluster t table bytes_per_cluster first filesize st cs
                       | Err _ => [AnsRejected]
                       end
    | CTell :: cs => match fat_tell t table bytes_per_cluster first filesize st with
                     | Ok (p, st) => AnsPos p :: fat_run read_cluster t table bytes_per_cluster first filesize st cs
                     | Err _ => [AnsRejected]
                     end
    end.
End File.

(** ** Volumes *)

(** The values in a boot sector. *)
Record boot := mkBoot { b_bytes_per_sector : Z; b_sectors_per_cluster : Z; b_reserved : Z; b_fats : Z; b_root_entries : Z; b_total16 : Z; b_total32 : Z;
  b_fat_size16 : Z; b_fat_size32 : Z; b_media : Z }.
(** [v] is stored in [n] bytes at [o]. *)
Definition stored_at (image : list Z) (o n v : Z) : Prop := number (firstn (Z.to_nat n) (skipn (Z.to_nat o) image)) = v.
Definition boot_sector_of (image : list Z) (b : boot) : Prop :=
  512 <= Z.of_nat (length image) /\ are_bytes image /\
  stored_at image 0 1 235 /\ stored_at image 2 1 144 /\
  stored_at image 11 2 (b_bytes_per_sector b) /\ stored_at image 13 1 (b_sectors_per_cluster b) /\ stored_at image 14 2 (b_reserved b) /\
  stored_at image 16 1 (b_fats b) /\ stored_at image 17 2 (b_root_entries b) /\ stored_at image 19 2 (b_total16 b) /\ stored_at image 21 1 (b_media b) /\
  stored_at image 22 2 (b_fat_size16 b) /\ stored_at image 32 4 (b_total32 b) /\ (b_fat_size16 b = 0 -> stored_at image 36 4 (b_fat_size32 b)) /\
  stored_at image 510 2 43605.
Definition valid_boot (b : boot) : Prop :=
  In (b_bytes_per_sector b) [512; 1024; 2048; 4096] /\ In (b_sectors_per_cluster b) [1; 2; 4; 8; 16; 32; 64; 128] /\ 0 < b_reserved b /\ 0 < b_fats b /\
  In (b_media b) [240; 248; 249; 250; 251; 252; 253; 254; 255] /\ (exists k, b_root_entries b * 32 = k * b_bytes_per_sector b) /\
  (b_total16 b <> 0 \/ b_total32 b <> 0) /\ (b_fat_size16 b <> 0 \/ b_fat_size32 b <> 0).
(** The areas of a volume, as in Microsoft's specification: reserved sectors, tables, root directory, clusters; the first cluster is number 2. *)
Definition sectors_in_fat (b : boot) : Z := if b_fat_size16 b =? 0 then b_fat_size32 b else b_fat_size16 b.
Definition sectors_in_all (b : boot) : Z := if b_total16 b =? 0 then b_total32 b else b_total16 b.
Definition sectors_in_root (b : boot) : Z := b_root_entries b * 32 / b_bytes_per_sector b.
Definition first_data (b : boot) : Z := b_reserved b + b_fats b * sectors_in_fat b + sectors_in_root b.
Definition cluster_start (b : boot) (c : Z) : Z := (first_data b + (c - 2) * b_sectors_per_cluster b) * b_bytes_per_sector b.
Definition cluster_bytes (image : list Z) (b : boot) (c : Z) : list Z :=
  firstn (Z.to_nat (b_sectors_per_cluster b * b_bytes_per_sector b)) (skipn (Z.to_nat (cluster_start b c)) image).
Definition fat_bytes (image : list Z) (b : boot) : list Z :=
  firstn (Z.to_nat (sectors_in_fat b * b_bytes_per_sector b)) (skipn (Z.to_nat (b_reserved b * b_bytes_per_sector b)) image).
(** The type only depends on the number of clusters. *)
Definition cluster_count (b : boot) : Z := (sectors_in_all b - first_data b) / b_sectors_per_cluster b.
Definition type_of (b : boot) : fat_type := if cluster_count b <? 4085 then FAT12 else if cluster_count b <? 65525 then FAT16 else FAT32.

(** The first [n] entries of a table. *)
Definition entries (t : fat_type) (bytes : list Z) (n : Z) : list Z := map (stored_entry t bytes) (seq 0 (Z.to_nat n)).
