(** Properties C60, C61 and C62: what the index of a TAR archive holds. *)
From Coq Require Import Ascii String.
From Verif Require Import PyBase PyDict PyStr Path_Model Path_Spec Path_Proofs FileInfo Strip_Model Index_Model Index_Spec Index_Proofs Build_Proofs
  Tar_Model Tar_Spec Tar_Proofs.
Local Open Scope Z_scope.

(** C60: every member of the archive, and of the archives nested in it down to the recursion limit, has a row with its path, size
    and attributes, and the offset of the row selects exactly the member's data blocks in the outermost archive. *)
Theorem C60_every_member_is_found :
  forall (transform : str -> str) (strip : bool) (remount : option (str -> str)) (archive : list block) (levels : nat),
  forall prefix header m body,
  holds (mounted_at transform strip remount) levels [] 0 archive prefix header m body ->
  exists r, In r (build (index_part transform strip remount false archive levels 0 archive [] 0)) /\
    describes transform archive prefix header m body r.
Proof. intros. now apply held_indexed. Qed.
Print Assumptions C60_every_member_is_found.

(** Without recursion, the index holds nothing else: each row describes a member (and has its mode), or is the folder of an
    incremental entry, or was generated for a folder above a row. *)
Theorem C60_nothing_else_is_indexed :
  forall (transform : str -> str) (strip : bool) (remount : option (str -> str)) (archive : list block) l,
  tarball archive l ->
  let table := build (index_part transform strip remount false archive 1 0 archive [] 0) in
  forall r, In r table ->
  (exists pos m body, In (pos, m, body) l /\ describes transform archive [] (512 * Z.of_nat pos) m body r /\ r_mode r = full_mode m) \/
  (exists pos m body, In (pos, m, body) l /\ incremental_row [] transform pos m r) \/
  (exists below pre n, In below table /\ generated_for below r pre n).
Proof. intros. now apply (flat_rows transform strip remount archive l). Qed.
Print Assumptions C60_nothing_else_is_indexed.

(** An archive: a/x (two data blocks, one further header block), a nested b.TAR that holds y, and a folder. *)
Definition plain (name : str) (type : ascii) (size : Z) (extra blocks : nat) : member :=
  mkMember name type 420 size 7 [] 1000 100 false extra blocks.
Definition inner_tar : list block := [Head (plain $"y" "0" 5 0 1); Other 3; Zero; Zero].
Definition sample_tar : list block :=
  [Head (plain $"a/x" "0" 600 1 2); Other 0; Other 1; Other 2; Head (plain $"b.TAR" "0" 2048 0 4)] ++ inner_tar
  ++ [Head (plain $"./c" "5" 0 0 0); Zero; Zero].

Lemma inner_layout : tarball inner_tar [(0%nat, plain $"y" "0" 5 0 1, [Other 3])].
Proof. apply (tar_member (plain $"y" "0" 5 0 1) [] [Other 3] [Zero; Zero] []); try reflexivity. apply tar_end. right. now exists [Zero]. Qed.
Lemma sample_layout : tarball sample_tar
  [(0%nat, plain $"a/x" "0" 600 1 2, [Other 1; Other 2]); (4%nat, plain $"b.TAR" "0" 2048 0 4, inner_tar); (9%nat, plain $"./c" "5" 0 0 0, [])].
Proof.
  apply (tar_member (plain $"a/x" "0" 600 1 2) [Other 0] [Other 1; Other 2]
           ([Head (plain $"b.TAR" "0" 2048 0 4)] ++ inner_tar ++ [Head (plain $"./c" "5" 0 0 0); Zero; Zero])
           [(0%nat, plain $"b.TAR" "0" 2048 0 4, inner_tar); (5%nat, plain $"./c" "5" 0 0 0, [])]); try reflexivity.
  apply (tar_member (plain $"b.TAR" "0" 2048 0 4) [] inner_tar [Head (plain $"./c" "5" 0 0 0); Zero; Zero] [(0%nat, plain $"./c" "5" 0 0 0, [])]); try reflexivity.
  apply (tar_member (plain $"./c" "5" 0 0 0) [] [] [Zero; Zero] []); try reflexivity. apply tar_end. right. now exists [Zero].
Qed.

(** The nested member y is held at /b/y if suffixes are stripped. *)
Example C60_example :
  holds (mounted_at (fun p => p) true None) 2 [] 0 sample_tar $"/b" 2560 (plain $"y" "0" 5 0 1) [Other 3] /\
  map (fun r => (full_path r, r_offset r, r_size r)) (build (index_part (fun p => p) true None false sample_tar 2 0 sample_tar [] 0)) =
    [($"/a/x", 1024, 600); ($"/c", 5120, 0); ($"/b/y", 3072, 5); ($"/b", 2560, 2048); ($"/b.TAR", 2560, 2048); ($"/a", 1024, 0)].
Proof.
  split; [|reflexivity].
  apply (holds_nested _ 0 [] 0 sample_tar _ 4 (plain $"b.TAR" "0" 2048 0 4) inner_tar $"/b" _ _ _ _ sample_layout).
  - right. now left.
  - split; [now left|]. exists $"b", $".TAR". split; reflexivity.
  - reflexivity.
  - exists $"/b". split; [|reflexivity]. right. split; [reflexivity|]. exists $".TAR". split; reflexivity.
  - apply (holds_here _ 0 $"/b" 2560 inner_tar _ 0 _ _ inner_layout). now left.
Qed.

(** C61: a regular file whose name merely ends in .tar stays a readable file.  Without recursion it does: its row has the mode of
    the member, and a regular file has the regular file bit. *)
Theorem C61_stays_a_file_partial :
  forall (transform : str -> str) (strip : bool) (remount : option (str -> str)) (archive : list block) l,
  tarball archive l ->
  forall pos m body, In (pos, m, body) l -> named_tar m -> 0 <= m_mode m < 4096 ->
  exists r, In r (build (index_part transform strip remount false archive 1 0 archive [] 0)) /\
    describes transform archive [] (512 * Z.of_nat pos) m body r /\ is_reg_mode (r_mode r) = true.
Proof.
  intros transform strip remount archive l Ht pos m body I [T _] Hm. exists (file_row transform [] 0 0 pos m).
  split; [now apply (flat_member transform strip remount archive l Ht pos m body)|]. split.
  - apply (file_row_describes transform archive archive l [] 0 0 pos m body Ht); [|assumption]. exists [], []. rewrite app_nil_r. split; reflexivity.
  - destruct (file_row_fields transform [] 0 0 pos m) as (_ & _ & _ & _ & _ & _ & -> & _).
    unfold is_reg_mode. apply Z.eqb_eq. apply full_mode_bits; [assumption| |]; destruct T as [<-|[<-|[<-|[<-|[]]]]]; (reflexivity || discriminate).
Qed.
Print Assumptions C61_stays_a_file_partial.

(** With recursion it does not: what cannot be read as a TAR archive is nevertheless mounted, so the newest version of the path is a
    folder, and that folder cannot be listed. *)
Definition fake_tar : list block := [Head (plain $"f.tar" "0" 600 0 2); Other 1; Other 2; Zero; Zero].
Theorem C61_fake_archive_refuted :
  tarball fake_tar [(0%nat, plain $"f.tar" "0" 600 0 2, [Other 1; Other 2])] /\
  let table := build (index_part (fun p => p) false None false fake_tar 2 0 fake_tar [] 0) in
  option_map (fun i => is_dir_mode (fi_mode i)) (lookup 0 0 0 (fun l => l) table $"/f.tar" 0) = Some true /\
  index_list (fun l => l) table $"/f.tar" = None.
Proof.
  split; [|split; reflexivity].
  apply (tar_member (plain $"f.tar" "0" 600 0 2) [] [Other 1; Other 2] [Zero; Zero] []); try reflexivity. apply tar_end. right. now exists [Zero].
Qed.
Print Assumptions C61_fake_archive_refuted.

(** C62: the file type bits of the index are those of the TAR type flag, for all flags except block devices. *)
Theorem C62_file_types_partial :
  forall m bits, 0 <= m_mode m < 4096 -> type_bits (m_type m) = Some bits -> m_type m <> "4"%char ->
  Z.land (full_mode m) S_IFMT = bits /\ Z.land (full_mode m) 4095 = m_mode m.
Proof.
  intros m bits Hm Hb N. split; [now apply full_mode_bits|now apply (full_mode_perm m bits)].
Qed.
Print Assumptions C62_file_types_partial.

Example C62_example :
  Z.land (full_mode (mkMember $"l" "2" 511 0 0 $"t" 0 0 false 0 0)) S_IFMT = 40960 /\
  Z.land (full_mode (mkMember $"d" "5" 493 0 0 [] 0 0 false 0 0)) S_IFMT = 16384.
Proof. split; reflexivity. Qed.

(** A block device has no file type at all. *)
Theorem C62_block_device_refuted :
  exists m, type_bits (m_type m) = Some 24576 /\ 0 <= m_mode m < 4096 /\ Z.land (full_mode m) S_IFMT = 0.
Proof. exists (mkMember $"sda" "4" 432 0 0 [] 0 0 false 0 0). repeat split; cbn; lia. Qed.
Print Assumptions C62_block_device_refuted.
