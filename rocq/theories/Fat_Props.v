(** C78, C79: files on FAT volumes. *)
From Verif Require Import PyBase MemFile_Spec Fat_Model Fat_Spec Fat_Proofs.
Local Open Scope Z_scope.

(** ** C78: reading a file *)

(** The file object of a file whose clusters are linked in the table behaves for every history of seeks, reads and tells like the content in memory,
    except that a seek beyond the end stops at the end; seeks before the start are excluded. *)
Theorem C78_fat_file_partial : forall (A : Type) (read_cluster : Z -> list A) t table bytes_per_cluster first content, 0 < bytes_per_cluster ->
  holds_file read_cluster t table bytes_per_cluster first content -> forall calls, capped_no_negative content 0 calls ->
  fat_run read_cluster t table bytes_per_cluster first (Z.of_nat (length content)) (fat_open first) calls = capped_run content 0 calls.
Proof. intros. now apply run_file. Qed.
Print Assumptions C78_fat_file_partial.

(** Without seeks beyond the end it is an in-memory file. *)
Fixpoint within (size pos : Z) {A} (content : list A) (calls : list call) : Prop :=
  match calls with
  | [] => True
  | c :: r => match c with CSeek o w => 0 <= target content pos o w <= size | _ => True end /\ within size (snd (mem_call content pos c)) content r
  end.
Theorem C78_as_in_memory : forall (A : Type) (read_cluster : Z -> list A) t table bytes_per_cluster first content, 0 < bytes_per_cluster ->
  holds_file read_cluster t table bytes_per_cluster first content -> forall calls, within (Z.of_nat (length content)) 0 content calls ->
  fat_run read_cluster t table bytes_per_cluster first (Z.of_nat (length content)) (fat_open first) calls = mem_run content 0 calls.
Proof.
  intros A read_cluster t table bpc first content P H calls W.
  assert (X : forall cs pos, within (Z.of_nat (length content)) pos content cs -> capped_no_negative content pos cs /\ capped_run content pos cs = mem_run content pos cs).
  { clear. induction cs as [|c cs IH]; intros pos W; [now split|]. destruct W as (W1 & W). destruct c as [o w|n|]; cbn [capped_no_negative capped_run capped_call mem_run mem_call snd] in *.
    - rewrite Z.min_l by lia. destruct (Z.ltb_spec (target content pos o w) 0); [lia|]. cbn [snd] in W. destruct (IH _ W) as (I1 & I2). rewrite I2. split; [split; [lia|exact I1]|reflexivity].
    - destruct (IH _ W) as (I1 & I2). rewrite I2. split; [split; [exact I|exact I1]|reflexivity].
    - destruct (IH _ W) as (I1 & I2). rewrite I2. split; [split; [exact I|exact I1]|reflexivity]. }
  destruct (X calls 0 W) as (X1 & X2). rewrite <- X2. now apply run_file.
Qed.
Print Assumptions C78_as_in_memory.

(** A file of seven bytes in the clusters 2 and 5 of four bytes each. *)
Definition two_clusters (c : Z) : list Z := if c =? 2 then [10; 11; 12; 13] else if c =? 5 then [14; 15; 16; 99] else [0; 0; 0; 0].
Definition small_table : list Z := [4088; 4095; 5; 0; 0; 4095].
Example C78_nontrivial : holds_file two_clusters FAT12 small_table 4 2 [10; 11; 12; 13; 14; 15; 16] /\
  (let calls := [CRead 3; CSeek 2 FromCurrent; CRead 100; CSeek (-4) FromEnd; CRead 2; CTell; CSeek 0 FromStart; CRead (-1)] in
   within 7 0 [10; 11; 12; 13; 14; 15; 16] calls /\
   mem_run [10; 11; 12; 13; 14; 15; 16] 0 calls =
     [AnsData [10; 11; 12]; AnsPos 5; AnsData [15; 16]; AnsPos 3; AnsData [13; 14]; AnsPos 5; AnsPos 0; AnsData [10; 11; 12; 13; 14; 15; 16]]).
Proof.
  split.
  - right. exists [5], [99]. split; [|split; [|reflexivity]].
    + apply linked_next; [split; [lia|reflexivity]|unfold data_cluster, ends_chain; lia|]. apply (linked_last _ _ 5 4095); [split; [lia|reflexivity]|unfold data_cluster, ends_chain; lia].
    + intros c [<-|[<-|[]]]; reflexivity.
  - split; [vm_compute; repeat split; discriminate|reflexivity].
Qed.

(** A seek before the start is not rejected, and a read after it returns bytes of the first cluster that do not lie there. *)
Theorem C78_negative_seek_refuted : exists (read_cluster : Z -> list Z) t table bytes_per_cluster first content,
  holds_file read_cluster t table bytes_per_cluster first content /\
  fat_run read_cluster t table bytes_per_cluster first (Z.of_nat (length content)) (fat_open first) [CSeek (-1) FromStart; CRead 1] = [AnsPos (-1); AnsData [13]] /\
  mem_run content 0 [CSeek (-1) FromStart; CRead 1] = [AnsRejected; AnsData [10]].
Proof. exists two_clusters, FAT12, small_table, 4, 2, [10; 11; 12; 13; 14; 15; 16]. split; [apply C78_nontrivial|]. split; reflexivity. Qed.
Print Assumptions C78_negative_seek_refuted.

(** A seek beyond the end does not go there. *)
Theorem C78_seek_beyond_end_refuted : exists (read_cluster : Z -> list Z) t table bytes_per_cluster first content,
  holds_file read_cluster t table bytes_per_cluster first content /\
  fat_run read_cluster t table bytes_per_cluster first (Z.of_nat (length content)) (fat_open first) [CSeek 9 FromStart; CSeek (-2) FromCurrent; CRead 1] = [AnsPos 7; AnsPos 5; AnsData [15]] /\
  mem_run content 0 [CSeek 9 FromStart; CSeek (-2) FromCurrent; CRead 1] = [AnsPos 9; AnsPos 7; AnsData []].
Proof. exists two_clusters, FAT12, small_table, 4, 2, [10; 11; 12; 13; 14; 15; 16]. split; [apply C78_nontrivial|]. split; reflexivity. Qed.
Print Assumptions C78_seek_beyond_end_refuted.

(** ** C79: the boot sector and the table *)

(** All entries of the table are read as they are stored, except the last one of a table of 12-bit entries whose size in bytes is not 2 modulo 3. *)
Theorem C79_table_partial : forall t bytes, are_bytes bytes -> 512 <= Z.of_nat (length bytes) -> Z.of_nat (length bytes) mod 4 = 0 ->
  parse_fat t bytes = Ok (entries t bytes (entries_in t bytes - match t with FAT12 => if Z.of_nat (length bytes) mod 3 =? 2 then 0 else 1 | _ => 0 end)).
Proof. intros. now apply parse_entries. Qed.
Print Assumptions C79_table_partial.
Example C79_table_nontrivial : exists bytes, are_bytes bytes /\ Z.of_nat (length bytes) = 512 /\ stored_entry FAT12 bytes 2 = 801 /\ stored_entry FAT12 bytes 3 = 1620 /\
  entries_in FAT12 bytes = 341.
Proof.
  exists ([240; 255; 255; 33; 67; 101] ++ repeat 0 506). split; [apply Forall_app; split; [repeat constructor; lia|apply Forall_forall; intros x I; apply repeat_spec in I; lia]|].
  assert (N : forall k, number (repeat 0 k) = 0) by (induction k as [|k IH]; [reflexivity|cbn [repeat]; rewrite number_cons, IH; reflexivity]).
  assert (Hn : number ([240; 255; 255; 33; 67; 101] ++ repeat 0 506) = number [240; 255; 255; 33; 67; 101]).
  { unfold number at 1. rewrite fold_right_app. change (fold_right (fun b n => b + 256 * n) 0 (repeat 0 506)) with (number (repeat 0 506)). now rewrite N. }
  split; [reflexivity|]. unfold stored_entry. rewrite Hn. split; [reflexivity|]. split; reflexivity.
Qed.

(** The missing entry: a file that uses the last cluster cannot be read. *)
Theorem C79_last_entry_refuted : forall bytes, are_bytes bytes -> 512 <= Z.of_nat (length bytes) -> Z.of_nat (length bytes) mod 4 = 0 -> Z.of_nat (length bytes) mod 3 <> 2 ->
  exists table, parse_fat FAT12 bytes = Ok table /\ chain_step FAT12 table (entries_in FAT12 bytes - 1) = Err IndexError.
Proof.
  intros bytes B L M M3. eexists. split; [now apply parse_entries|]. change (Z.of_nat (length bytes)) with (len bytes) in *. destruct (Z.eqb_spec (len bytes mod 3) 2); [congruence|].
  assert (E : 1 <= entries_in FAT12 bytes) by (unfold entries_in; cbn [entry_bits]; change (Z.of_nat (length bytes)) with (len bytes); apply Z.div_le_lower_bound; lia).
  unfold chain_step. assert (Ln : len (entries FAT12 bytes (entries_in FAT12 bytes - 1)) = entries_in FAT12 bytes - 1) by (unfold len, entries; rewrite map_length, seq_length; lia).
  rewrite Ln, Z.leb_refl. destruct (Z.ltb_spec (entries_in FAT12 bytes - 1) 0); [lia|].
  assert (Nn : nth_error (entries FAT12 bytes (entries_in FAT12 bytes - 1)) (Z.to_nat (entries_in FAT12 bytes - 1)) = None).
  { apply nth_error_None. unfold entries. rewrite map_length, seq_length. lia. }
  now rewrite Nn.
Qed.
Print Assumptions C79_last_entry_refuted.
Example C79_last_entry_reachable : (3 * 512) mod 4 = 0 /\ (3 * 512) mod 3 <> 2 /\ entries_in FAT12 (repeat 0 1536) = 1024.
Proof. split; [reflexivity|]. split; [discriminate|]. unfold entries_in. rewrite repeat_length. reflexivity. Qed.

(** The volume is recognized with its type, and its clusters and its table are found where they are; the exception is the type of a volume whose
    number of clusters is below 4085 but would not be if the root directory belonged to the clusters. *)
Theorem C79_volume_partial : forall image b, boot_sector_of image b -> valid_boot b -> (b_fat_size16 b = 0 <-> type_of b = FAT32) ->
  (type_of b = FAT12 -> (sectors_in_all b - (b_reserved b + b_fats b * sectors_in_fat b)) / b_sectors_per_cluster b < 4085) ->
  is_fat_image image = Ok true /\
  exists v, parse_header image = Ok v /\ v_type v = type_of b /\ bytes_per_cluster_of v = b_sectors_per_cluster b * b_bytes_per_sector b /\
    (forall c, read_cluster_contents image v c = cluster_bytes image b c) /\
    ((b_reserved b + sectors_in_fat b) * b_bytes_per_sector b <= Z.of_nat (length image) -> first_fat image v = Ok (fat_bytes image b)).
Proof.
  intros image b Bs V C32 C12. pose proof (parse_boot image b Bs V) as P. split; [unfold is_fat_image; now rewrite P|].
  eexists. split; [exact P|]. cbv zeta. unfold bytes_per_cluster_of, read_cluster_contents, first_fat, cluster_address, bytes_per_cluster_of.
  cbn [v_header v_type v_fat_size v_first_data_sector h_bytes_per_sec h_sec_per_clus h_rsvd]. split; [|split; [|split]].
  - now apply (type_right image b).
  - lia.
  - intros c. unfold cluster_bytes, cluster_start, zslice, ztake, zskip. do 2 f_equal; [lia|]. f_equal. lia.
  - intros Le. unfold fat_bytes. replace (sectors_in_fat b * b_bytes_per_sector b) with (b_bytes_per_sector b * sectors_in_fat b) by lia.
    assert (Ps : 0 < b_bytes_per_sector b) by (destruct V as (V1 & _); cbn in V1; lia). assert (Pr : 0 < b_reserved b) by apply V.
    assert (F0 : 0 <= sectors_in_fat b).
    { unfold sectors_in_fat. destruct Bs as (_ & B & _ & _ & _ & _ & _ & _ & _ & _ & _ & H8 & _ & H10 & _). destruct (Z.eqb_spec (b_fat_size16 b) 0) as [E|E].
      - exact (stored_nonneg _ _ _ _ B (H10 E)).
      - exact (stored_nonneg _ _ _ _ B H8). }
    rewrite len_zslice by nia. change (Z.of_nat (length image)) with (len image) in Le. rewrite Z.min_l by nia. rewrite Z.eqb_refl. reflexivity.
Qed.
Print Assumptions C79_volume_partial.

(** Together: a file whose clusters are linked in the table on the image is read back from the image. *)
Theorem C79_file_of_image : forall image b, boot_sector_of image b -> valid_boot b -> (b_fat_size16 b = 0 <-> type_of b = FAT32) ->
  (type_of b = FAT12 -> (sectors_in_all b - (b_reserved b + b_fats b * sectors_in_fat b)) / b_sectors_per_cluster b < 4085) ->
  (b_reserved b + sectors_in_fat b) * b_bytes_per_sector b <= Z.of_nat (length image) ->
  exists v fat table, parse_header image = Ok v /\ first_fat image v = Ok fat /\ parse_fat (v_type v) fat = Ok table /\
    forall first content usable, usable < entries_in (type_of b) (fat_bytes image b) ->
      holds_file (cluster_bytes image b) (type_of b) (entries (type_of b) (fat_bytes image b) usable) (b_sectors_per_cluster b * b_bytes_per_sector b) first content ->
      forall calls, capped_no_negative content 0 calls ->
      fat_run (read_cluster_contents image v) (v_type v) table (bytes_per_cluster_of v) first (Z.of_nat (length content)) (fat_open first) calls = capped_run content 0 calls.
Proof.
  intros image b Bs V C32 C12 Le. destruct (C79_volume_partial image b Bs V C32 C12) as (_ & v & P & T & Bc & Rc & Ff). specialize (Ff Le).
  assert (Ps : 512 <= b_bytes_per_sector b /\ b_bytes_per_sector b mod 4 = 0) by (destruct V as (V1 & _); cbn in V1; destruct V1 as [<-|[<-|[<-|[<-|[]]]]]; split; (lia || reflexivity)).
  assert (Pc : 0 < b_sectors_per_cluster b) by (destruct V as (_ & V2 & _); cbn in V2; lia).
  assert (Pr : 0 < b_reserved b) by apply V.
  assert (F0 : 0 < sectors_in_fat b).
  { unfold sectors_in_fat. destruct Bs as (_ & B & _ & _ & _ & _ & _ & _ & _ & _ & _ & H8 & _ & H10 & _). destruct V as (_ & _ & _ & _ & _ & _ & _ & V8). destruct (Z.eqb_spec (b_fat_size16 b) 0) as [E|E].
    - pose proof (stored_nonneg _ _ _ _ B (H10 E)). lia.
    - pose proof (stored_nonneg _ _ _ _ B H8). lia. }
  assert (Lf : len (fat_bytes image b) = sectors_in_fat b * b_bytes_per_sector b).
  { change (fat_bytes image b) with (zslice image (b_reserved b * b_bytes_per_sector b) (sectors_in_fat b * b_bytes_per_sector b)). rewrite len_zslice by nia. change (Z.of_nat (length image)) with (len image) in Le. nia. }
  assert (Bf : are_bytes (fat_bytes image b)) by (apply (are_bytes_zslice image (b_reserved b * b_bytes_per_sector b) (sectors_in_fat b * b_bytes_per_sector b)); apply Bs).
  assert (M : len (fat_bytes image b) mod 4 = 0) by (rewrite Lf, Z.mul_mod by lia; destruct Ps as (_ & ->); now rewrite Z.mul_0_r).
  exists v, (fat_bytes image b). eexists. split; [exact P|]. split; [exact Ff|]. rewrite T. split; [apply parse_entries; [exact Bf|nia|exact M]|].
  intros first content usable U H calls N. rewrite Bc. apply run_file; [nia| |exact N].
  destruct H as [->|(rest & slack & L & Fu & D)]; [now left|right]. exists rest, slack. split; [|split].
  - assert (Mono : forall n m l, n <= m -> linked (type_of b) (entries (type_of b) (fat_bytes image b) n) l -> linked (type_of b) (entries (type_of b) (fat_bytes image b) m) l).
    { intros n m l Lnm Hl. assert (Va : forall c x, value_at (entries (type_of b) (fat_bytes image b) n) c x -> value_at (entries (type_of b) (fat_bytes image b) m) c x).
      { intros c x (C0 & Hc). split; [exact C0|]. unfold entries in *. assert (Hb : (Z.to_nat c < length (map (stored_entry (type_of b) (fat_bytes image b)) (seq 0 (Z.to_nat n))))%nat) by (apply nth_error_Some; congruence).
        replace (Z.to_nat m) with (Z.to_nat n + (Z.to_nat m - Z.to_nat n))%nat by lia. rewrite seq_app, map_app, nth_error_app1 by exact Hb. exact Hc. }
      induction Hl as [c x Hv He|c d r Hv Hd Hl IH]; [apply (linked_last _ _ c x); auto|apply linked_next; auto]. }
    apply (Mono usable); [|exact L]. destruct (type_of b); try lia. destruct (_ =? 2); lia.
  - intros c I. rewrite Rc. now apply Fu.
  - erewrite map_ext; [exact D|]. intros c. apply Rc.
Qed.
Print Assumptions C79_file_of_image.

(** A boot sector: 4080 clusters of one sector, two tables of 12 sectors and 512 entries in the root directory, so that it is FAT12. *)
Definition boot_4080 : boot := mkBoot 512 1 1 2 512 4137 0 12 0 248.
Definition image_4080 : list Z :=
  [235; 60; 144; 0; 0; 0; 0; 0; 0; 0; 0; 0; 2; 1; 1; 0; 2; 0; 2; 41; 16; 248; 12; 0; 0; 0; 0; 0; 0; 0; 0; 0; 0; 0; 0; 0] ++ repeat 0 474 ++ [85; 170].
Lemma image_4080_boot : boot_sector_of image_4080 boot_4080 /\ valid_boot boot_4080.
Proof.
  split.
  - split; [cbn; lia|]. split; [apply Forall_app; split; [repeat constructor; lia|apply Forall_app; split; [apply Forall_forall; intros x I; apply repeat_spec in I; lia|repeat constructor; lia]]|].
    repeat (split; [reflexivity|]). reflexivity.
  - split; [cbn; auto|]. split; [cbn; auto|]. split; [cbn; lia|]. split; [cbn; lia|]. split; [cbn; auto|]. split; [exists 32; reflexivity|]. split; left; cbn; lia.
Qed.
Theorem C79_type_refuted : exists image b v, boot_sector_of image b /\ valid_boot b /\ cluster_count b = 4080 /\ type_of b = FAT12 /\
  parse_header image = Ok v /\ v_type v = FAT16.
Proof.
  exists image_4080, boot_4080. eexists. split; [apply image_4080_boot|]. split; [apply image_4080_boot|]. split; [reflexivity|]. split; [reflexivity|].
  split; [apply parse_boot; apply image_4080_boot|]. reflexivity.
Qed.
Print Assumptions C79_type_refuted.

(** The usual case: a volume of 2847 clusters, a floppy disk. *)
Definition boot_floppy : boot := mkBoot 512 1 1 2 224 2880 0 9 0 240.
Definition image_floppy : list Z :=
  [235; 60; 144; 0; 0; 0; 0; 0; 0; 0; 0; 0; 2; 1; 1; 0; 2; 224; 0; 64; 11; 240; 9; 0; 0; 0; 0; 0; 0; 0; 0; 0; 0; 0; 0; 0] ++ repeat 0 474 ++ [85; 170] ++ repeat 0 4608.
Example C79_volume_nontrivial : boot_sector_of image_floppy boot_floppy /\ valid_boot boot_floppy /\ (b_fat_size16 boot_floppy = 0 <-> type_of boot_floppy = FAT32) /\
  type_of boot_floppy = FAT12 /\ cluster_count boot_floppy = 2847 /\ (sectors_in_all boot_floppy - (b_reserved boot_floppy + b_fats boot_floppy * sectors_in_fat boot_floppy)) / b_sectors_per_cluster boot_floppy < 4085 /\
  (b_reserved boot_floppy + sectors_in_fat boot_floppy) * b_bytes_per_sector boot_floppy <= Z.of_nat (length image_floppy).
Proof.
  split; [|split; [|split; [|split; [reflexivity|split; [reflexivity|split; [reflexivity|]]]]]].
  - split; [unfold image_floppy; rewrite !app_length, !repeat_length; cbn; lia|].
    split; [apply Forall_app; split; [repeat constructor; lia|apply Forall_app; split; [apply Forall_forall; intros x I; apply repeat_spec in I; lia|
      apply Forall_app; split; [repeat constructor; lia|apply Forall_forall; intros x I; apply repeat_spec in I; lia]]]|].
    repeat (split; [reflexivity|]). reflexivity.
  - split; [cbn; auto|]. split; [cbn; auto|]. split; [cbn; lia|]. split; [cbn; lia|]. split; [cbn; auto|]. split; [exists 14; reflexivity|]. split; left; cbn; lia.
  - split; [discriminate|]. intros H. vm_compute in H. discriminate.
  - unfold image_floppy. rewrite !app_length, !repeat_length. cbn. lia.
Qed.

(** The check is not total: a short file that starts like a boot sector makes it fail with an error instead of an answer. *)
Theorem C79_check_refuted : exists image, Z.of_nat (length image) = 100 /\ is_fat_image image = Err StructError.
Proof. exists (firstn 100 image_4080). split; vm_compute; reflexivity. Qed.
Print Assumptions C79_check_refuted.

(** For every file of at least 512 bytes there is an answer, and it is whether the file starts like a boot sector; files below 36 bytes are no
    images. *)
Definition value_in (image : list Z) (o n : nat) : Z := number (firstn n (skipn o image)).
Definition looks_fat (image : list Z) : Prop :=
  (value_in image 0 1 = 235 /\ value_in image 2 1 = 144 \/ value_in image 0 1 = 233) /\
  In (value_in image 11 2) [512; 1024; 2048; 4096] /\ In (value_in image 13 1) [1; 2; 4; 8; 16; 32; 64; 128] /\
  value_in image 14 2 <> 0 /\ In (value_in image 21 1) [240; 248; 249; 250; 251; 252; 253; 254; 255] /\ value_in image 16 1 <> 0 /\
  value_in image 17 2 * 32 mod value_in image 11 2 = 0 /\ ~ (value_in image 19 2 = 0 /\ value_in image 32 4 = 0) /\ value_in image 510 2 = 43605.
Lemma existsb_spec x l : existsb (Z.eqb x) l = true <-> In x l.
Proof. rewrite existsb_exists. split; [intros (y & I & E); apply Z.eqb_eq in E; now subst|intros I; exists x; split; [exact I|apply Z.eqb_refl]]. Qed.
Theorem C79_check : forall image, are_bytes image ->
  (512 <= Z.of_nat (length image) -> (looks_fat image -> is_fat_image image = Ok true) /\ (~ looks_fat image -> is_fat_image image = Ok false)) /\
  (Z.of_nat (length image) < 36 -> is_fat_image image = Ok false).
Proof.
  intros image B. split.
  - intros L. change (Z.of_nat (length image)) with (len image) in L. unfold is_fat_image, parse_header.
    assert (Lb : len (zslice image 0 512) = 512) by (rewrite len_zslice by lia; lia).
    assert (L36 : len (zslice (zslice image 0 512) 0 36) = 36) by (rewrite len_zslice by lia; lia). rewrite L36.
    destruct (Z.ltb_spec 36 36) as [X|_]; [lia|].
    assert (Jm2 : zslice (zslice (zslice image 0 512) 0 36) 0 3 = zslice image 0 3) by (rewrite (zslice_zslice (zslice image 0 512)) by lia; rewrite zslice_zslice by lia; reflexivity).
    set (hd := parse_bpb (zslice (zslice image 0 512) 0 36) false).
    assert (A : forall o n, 0 <= o -> 0 <= n -> o + n <= 36 -> field (zslice (zslice image 0 512) 0 36) o n = number (firstn (Z.to_nat n) (skipn (Z.to_nat o) image))).
    { intros o n O N Le. rewrite field_any by assumption. apply field_number; [lia|lia|lia|reflexivity]. }
    assert (A1 := A 11 2 ltac:(lia) ltac:(lia) ltac:(lia)). change (h_bytes_per_sec hd = number (firstn (Z.to_nat 2) (skipn (Z.to_nat 11) image))) in A1.
    assert (A2 := A 13 1 ltac:(lia) ltac:(lia) ltac:(lia)). change (h_sec_per_clus hd = number (firstn (Z.to_nat 1) (skipn (Z.to_nat 13) image))) in A2.
    assert (A3 := A 14 2 ltac:(lia) ltac:(lia) ltac:(lia)). change (h_rsvd hd = number (firstn (Z.to_nat 2) (skipn (Z.to_nat 14) image))) in A3.
    assert (A4 := A 16 1 ltac:(lia) ltac:(lia) ltac:(lia)). change (h_num_fats hd = number (firstn (Z.to_nat 1) (skipn (Z.to_nat 16) image))) in A4.
    assert (A5 := A 17 2 ltac:(lia) ltac:(lia) ltac:(lia)). change (h_root_ent hd = number (firstn (Z.to_nat 2) (skipn (Z.to_nat 17) image))) in A5.
    assert (A6 := A 19 2 ltac:(lia) ltac:(lia) ltac:(lia)). change (h_tot16 hd = number (firstn (Z.to_nat 2) (skipn (Z.to_nat 19) image))) in A6.
    assert (A7 := A 21 1 ltac:(lia) ltac:(lia) ltac:(lia)). change (h_media hd = number (firstn (Z.to_nat 1) (skipn (Z.to_nat 21) image))) in A7.
    assert (A8 := A 32 4 ltac:(lia) ltac:(lia) ltac:(lia)). change (h_tot32 hd = number (firstn (Z.to_nat 4) (skipn (Z.to_nat 32) image))) in A8.
    change (h_jmp hd = zslice image 0 3) in Jm2. unfold verify_bpb. rewrite A1, A2, A3, A4, A5, A6, A7, A8, Jm2. clear A A1 A2 A3 A4 A5 A6 A7 A8 Jm2. clearbody hd.
    set (bps := number (firstn (Z.to_nat 2) (skipn (Z.to_nat 11) image))). set (spc := number (firstn (Z.to_nat 1) (skipn (Z.to_nat 13) image))).
    set (rsv := number (firstn (Z.to_nat 2) (skipn (Z.to_nat 14) image))). set (fats := number (firstn (Z.to_nat 1) (skipn (Z.to_nat 16) image))).
    set (ent := number (firstn (Z.to_nat 2) (skipn (Z.to_nat 17) image))). set (t16 := number (firstn (Z.to_nat 2) (skipn (Z.to_nat 19) image))).
    set (media := number (firstn (Z.to_nat 1) (skipn (Z.to_nat 21) image))). set (t32 := number (firstn (Z.to_nat 4) (skipn (Z.to_nat 32) image))).
    unfold looks_fat. change (value_in image 11 2) with bps. change (value_in image 13 1) with spc. change (value_in image 14 2) with rsv. change (value_in image 16 1) with fats.
    change (value_in image 17 2) with ent. change (value_in image 19 2) with t16. change (value_in image 21 1) with media. change (value_in image 32 4) with t32.
    assert (F0 : 0 <= fats) by (eapply (stored_nonneg image 16 1); [exact B|reflexivity]).
    assert (J : exists x y z, zslice image 0 3 = [x; y; z] /\ value_in image 0 1 = x /\ value_in image 2 1 = z).
    { clear - L. destruct image as [|x [|y [|z l]]]; try (unfold len in L; cbn [length] in L; lia). exists x, y, z. split; [reflexivity|].
      split; [change (x + 256 * 0 = x)|change (z + 256 * 0 = z)]; lia. }
    destruct J as (x & y & z & -> & -> & ->).
    assert (Sl : le (zslice image 510 2) = value_in image 510 2) by (rewrite le_number; reflexivity).
    assert (Ls : len (zslice image 510 2) = 2) by (rewrite len_zslice by lia; lia). rewrite Ls, Sl, Lb. change (2 =? 2) with true. cbn [negb]. set (sig := value_in image 510 2).
    assert (G : forall b : bool, (512 <? (if b then 90 else 62)) = false) by (intros []; reflexivity). rewrite G. cbv zeta. clear G.
    pose proof (existsb_spec bps [512; 1024; 2048; 4096]) as V1. pose proof (existsb_spec spc [1; 2; 4; 8; 16; 32; 64; 128]) as V2.
    pose proof (existsb_spec media [240; 248; 249; 250; 251; 252; 253; 254; 255]) as V3.
    set (e1 := existsb (Z.eqb bps) [512; 1024; 2048; 4096]) in *. set (e2 := existsb (Z.eqb spc) [1; 2; 4; 8; 16; 32; 64; 128]) in *.
    set (e3 := existsb (Z.eqb media) [240; 248; 249; 250; 251; 252; 253; 254; 255]) in *.
    set (i1 := In bps _) in *. set (i2 := In spc _) in *. set (i3 := In media _) in *.
    assert (N0 : ent = 0 -> ent * 32 mod bps = 0) by (intros ->; apply Zmod_0_l).
    clearbody bps spc rsv fats ent t16 media t32 sig e1 e2 e3 i1 i2 i3. clear - V1 V2 V3 F0 N0.
    destruct (Z.eqb_spec x 235) as [Jx|Jx]; [destruct (Z.eqb_spec z 144)|destruct (Z.eqb_spec x 233)]; cbn [negb]; try (split; [intros H; exfalso; lia|reflexivity]);
      (destruct e1; cbn [negb]; [|split; [intros H; exfalso; intuition congruence|reflexivity]]);
      (destruct e2; cbn [negb]; [|split; [intros H; exfalso; intuition congruence|reflexivity]]);
      (destruct (Z.eqb_spec rsv 0); [split; [intros H; exfalso; intuition congruence|reflexivity]|]);
      (destruct e3; cbn [negb]; [|split; [intros H; exfalso; intuition congruence|reflexivity]]);
      (destruct (Z.ltb_spec fats 1); [split; [intros H0; exfalso; intuition lia|reflexivity]|]);
      (destruct (Z.eqb_spec (ent * 32 mod bps) 0) as [Em|Em]; [rewrite andb_false_r|destruct (Z.eqb_spec ent 0); [now destruct Em; apply N0|]; cbn [negb andb]; split; [intros H0; exfalso; intuition congruence|reflexivity]]);
      (destruct (Z.eqb_spec t16 0), (Z.eqb_spec t32 0); cbn [andb]; try (split; [intros H0; exfalso; intuition congruence|reflexivity]));
      (destruct (Z.eqb_spec sig 43605); cbn [negb]; (split; [intros H0; try reflexivity; exfalso; intuition congruence|intros H0; try reflexivity; exfalso; apply H0; intuition lia])).
  - intros L. unfold is_fat_image, parse_header. change (Z.of_nat (length image)) with (len image) in L.
    assert (len (zslice (zslice image 0 512) 0 36) < 36) as X; [|apply Z.ltb_lt in X; now rewrite X].
    rewrite zslice_zslice by lia. unfold zslice, ztake, zskip, len in *. rewrite firstn_length, skipn_length. lia.
Qed.
Print Assumptions C79_check.
Example C79_check_nontrivial : are_bytes image_floppy /\ 512 <= Z.of_nat (length image_floppy) /\ looks_fat image_floppy /\ ~ looks_fat (0 :: tl image_floppy).
Proof.
  split; [|split; [|split]].
  - apply C79_volume_nontrivial.
  - apply C79_volume_nontrivial.
  - vm_compute. repeat split; try discriminate; auto 20. intros [X _]; discriminate.
  - intros [[[X _]|X] _]; vm_compute in X; discriminate.
Qed.
