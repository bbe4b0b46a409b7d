(** Properties C43 and C51 to C54: format detection. *)
From Coq Require Import Ascii String.
From Verif Require Import PyBase PyDict PyStr Asar_Model Format_Model Format_Spec Format_Proofs.
Local Open Scope Z_scope.

(** ** C43 *)

(** C43: probing leaves the position where it was, whatever the check does: it may raise and may leave the file anywhere. *)
Theorem C43_position :
  forall (data : str) (pos : Z) (info : format) (formats : list (Z * format)) (t : tables),
  snd (might_be_format data pos info) = pos /\ snd (detect_formats formats t data pos) = pos.
Proof.
  intros data pos info formats t. split; [apply position|]. unfold detect_formats. destruct (read data pos 2) as [two q]. destruct (len two <? 2); [reflexivity|].
  generalize (match dget str_eqb (fst t) two with Some l => l | None => [] end ++ snd t). clear. intros fids. induction fids as [|fid fids IH]; [reflexivity|]. cbn [test_formats].
  destruct (dget Z.eqb formats fid) as [i|]; [|reflexivity]. pose proof (position data pos i) as P. destruct (might_be_format data pos i) as [[b|e] q']; cbn [snd] in *; subst q'; [|reflexivity].
  destruct (test_formats formats data pos fids) as [[l|e] q']; exact IH.
Qed.
Print Assumptions C43_position.

(** C43: a format with magic bytes and no further check accepts exactly the files that have them at the current position, one
    with a check accepts the files that have the magic bytes and pass the check, and one with neither accepts none. *)
Theorem C43_accepts :
  forall (data : str) (pos : Z), 0 <= pos ->
  (forall magic, magic <> [] -> fst (might_be_format data pos (mkFormat (Some magic) None)) = Ok true <-> stands_at data pos magic) /\
  (forall magic check r, magic <> [] -> r <> Ok false -> fst (might_be_format data pos (mkFormat (Some magic) (Some check))) = r <-> stands_at data pos magic /\ fst (check data pos) = r) /\
  (forall check, fst (might_be_format data pos (mkFormat None (Some check))) = fst (check data pos)) /\
  fst (might_be_format data pos (mkFormat None None)) = Ok false /\
  (forall magic, magic <> [] -> ~ stands_at data pos magic -> forall check, fst (might_be_format data pos (mkFormat (Some magic) check)) = Ok false).
Proof.
  intros data pos Hp. split; [|split; [|split; [|split]]].
  - intros magic N. rewrite verdict by exact Hp. cbn [magicBytes checkHeader]. split.
    + intros [(m & _ & _ & _ & [=])|[H _]]. now apply H.
    + intros S. right. split; [now intros m [= <-]|]. left. split; [reflexivity|]. now exists magic.
  - intros magic check r N Nr. rewrite verdict by exact Hp. cbn [magicBytes checkHeader]. split.
    + intros [(m & _ & _ & _ & X)|[H E]]; [congruence|]. split; [now apply H|now symmetry].
    + intros [S E]. right. split; [now intros m [= <-]|now symmetry].
  - intros check. apply verdict; [exact Hp|]. right. cbn. split; [discriminate|reflexivity].
  - reflexivity.
  - intros magic N S check. apply verdict; [exact Hp|]. left. now exists magic.
Qed.
Print Assumptions C43_accepts.

Example C43_example :
  might_be_format $"xxRIFF____AVI LIST" 2 (mkFormat (Some $"RIFF") (Some is_avi)) = (Ok true, 2) /\
  might_be_format $"xxRIFF____WAVE" 2 (mkFormat (Some $"RIFF") (Some is_avi)) = (Ok false, 2) /\
  might_be_format $"RIFF" 0 (mkFormat (Some $"RI") (Some (fun _ p => (Err ValueError, p + 100)))) = (Err ValueError, 0).
Proof. repeat split. Qed.

(** ** C51 *)

(** C51: the formats may have been registered in several steps, each followed by recomputing the tables.  For a file with at
    least two bytes, if no check raises, exactly the formats are found that pass the test of might_be_format. *)
Theorem C51_detect :
  forall (history : list (list (Z * format))) (formats : list (Z * format)), NoDup (map fst formats) ->
  (forall earlier fid info, In earlier history -> In (fid, info) earlier -> exists info', In (fid, info') formats) ->
  let t := fold_left recompute_cached_magic_bytes (history ++ [formats]) ([], []) in
  forall (data : str) (pos : Z), 0 <= pos -> pos + 2 <= Z.of_nat (length data) ->
  (forall fid info, In (fid, info) formats -> exists b, fst (might_be_format data pos info) = Ok b) ->
  exists found, detect_formats formats t data pos = (Ok found, pos) /\
    forall fid, In fid found <-> exists info, In (fid, info) formats /\ fst (might_be_format data pos info) = Ok true.
Proof.
  intros history formats N Hh t data pos Hp L Hr. set (t0 := fold_left recompute_cached_magic_bytes history ([], [])).
  assert (t = recompute_cached_magic_bytes t0 formats) as Et by (unfold t, t0; now rewrite fold_left_app).
  assert (forall fid, In fid (snd t0) \/ (exists two l, dget str_eqb (fst t0) two = Some l /\ In fid l) -> exists info, In (fid, info) formats) as K0.
  { unfold t0. clear - Hh. induction history as [|f history IH] using rev_ind; [intros fid [[]|(two & l & [=] & _)]|]. rewrite fold_left_app. cbn [fold_left]. set (t1 := fold_left _ history _) in *. intros fid H.
    assert (In fid (snd t1) \/ (exists two l, dget str_eqb (fst t1) two = Some l /\ In fid l) \/ exists info, In (fid, info) f) as [H1|[H1|[info H1]]].
    - destruct H as [H|(two & H)].
      + destruct (tables_all f t1 [] fid) as [T _]. cbn zeta in T. apply T in H as [H|(info & I & _)]; [now left|right; right; now exists info].
      + destruct (tables_all f t1 two fid) as [_ T]. cbn zeta in T. apply T in H as [H|(info & a & b & r & I & _)]; [right; left; now exists two|right; right; now exists info].
    - apply IH; [|now left]. intros e i j Ie. apply Hh. apply in_or_app. now left.
    - apply IH; [|now right]. intros e i j Ie. apply Hh. apply in_or_app. now left.
    - apply (Hh f fid info); [apply in_or_app; right; now left|exact H1]. }
  rewrite Et. apply detect_all; try assumption.
  - intros fid [H|(two & H)].
    + destruct (tables_all formats t0 [] fid) as [T _]. cbn zeta in T. apply T in H as [H|(info & I & _)]; [apply K0; now left|now exists info].
    + destruct (tables_all formats t0 two fid) as [_ T]. cbn zeta in T. apply T in H as [H|(info & a & b & r & I & _)]; [apply K0; right; now exists two|now exists info].
  - intros fid info I M. destruct (tables_all formats t0 [] fid) as [T _]. cbn zeta in T. apply T. right. now exists info.
  - intros fid info a b r I M. destruct (tables_all formats t0 [a; b] fid) as [_ T]. cbn zeta in T. apply T. right. now exists info, a, b, r.
Qed.
Print Assumptions C51_detect.

Lemma sane_detect : forall formats, NoDup (map fst formats) -> Forall (fun f => sane_format (snd f)) formats ->
  forall data pos, 0 <= pos ->
  exists found, detect_formats formats (recompute_cached_magic_bytes ([], []) formats) data pos = (Ok found, pos) /\
    forall fid, In fid found <-> exists info, In (fid, info) formats /\ fst (might_be_format data pos info) = Ok true.
Proof.
  intros formats N Sane data pos Hp. rewrite Forall_forall in Sane.
  assert (forall fid info, In (fid, info) formats -> exists b, fst (might_be_format data pos info) = Ok b /\ (b = true -> pos + 2 <= len data)) as Hm.
  { intros fid info I. apply sane_might; [exact (Sane _ I)|exact Hp]. }
  destruct (Z.le_gt_cases (pos + 2) (len data)) as [L|L].
  - apply (C51_detect [] formats); try assumption.
    + intros e fid info [].
    + intros fid info I. destruct (Hm fid info I) as (b & E & _). now exists b.
  - exists []. split.
    + unfold detect_formats, read. assert (len (zslice data pos 2) < 2) as L2 by (rewrite len_zslice by lia; lia). apply Z.ltb_lt in L2. now rewrite L2.
    + intros fid. split; [intros []|]. intros (info & I & E). destruct (Hm fid info I) as (b & E2 & H). assert (b = true) as B by congruence. specialize (H B). lia.
Qed.

(** C51 for the formats of ratarmount, and then for files of any size: if the checks of the other libraries for TAR, ZIP and
    deflate do not raise and accept no file with less than two bytes, the detection does not raise and finds exactly the formats
    that pass their test. *)
Theorem C51_table :
  forall (is_tar is_zipfile check_deflate : checker),
  (forall c, In c [is_tar; is_zipfile; check_deflate] -> forall data pos, 0 <= pos ->
     exists b, fst (c data pos) = Ok b /\ (b = true -> pos + 2 <= Z.of_nat (length data))) ->
  let formats := file_formats is_tar is_zipfile check_deflate in
  let t := recompute_cached_magic_bytes ([], []) formats in
  forall (data : str) (pos : Z), 0 <= pos ->
  exists found, detect_formats formats t data pos = (Ok found, pos) /\
    forall fid, In fid found <-> exists info, In (fid, info) formats /\ fst (might_be_format data pos info) = Ok true.
Proof.
  intros is_tar is_zipfile check_deflate Hc. cbv zeta.
  pose proof (sane_table is_tar is_zipfile check_deflate (Hc _ (or_introl eq_refl)) (Hc _ (or_intror (or_introl eq_refl))) (Hc _ (or_intror (or_intror (or_introl eq_refl))))) as Sane.
  pose proof (table_keys is_tar is_zipfile check_deflate) as N. revert N Sane. generalize (file_formats is_tar is_zipfile check_deflate). intros formats N Sane. now apply sane_detect.
Qed.
Print Assumptions C51_table.

(** C51 from the outside: a file is detected as 7z, RAR, gzip, ... exactly if it has the published signature at the position. *)
Theorem C51_signatures :
  forall (is_tar is_zipfile check_deflate : checker),
  (forall c, In c [is_tar; is_zipfile; check_deflate] -> forall data pos, 0 <= pos ->
     exists b, fst (c data pos) = Ok b /\ (b = true -> pos + 2 <= Z.of_nat (length data))) ->
  let formats := file_formats is_tar is_zipfile check_deflate in
  let t := recompute_cached_magic_bytes ([], []) formats in
  forall (data : str) (pos : Z), 0 <= pos ->
  exists found, fst (detect_formats formats t data pos) = Ok found /\
    forall fid signature, In (fid, signature) signatures -> (In fid found <-> stands_at data pos (map ascii_of_nat signature)).
Proof.
  intros is_tar is_zipfile check_deflate Hc. cbv zeta. intros data pos Hp. destruct (C51_table is_tar is_zipfile check_deflate Hc data pos Hp) as (found & E & H). exists found. rewrite E. split; [reflexivity|].
  intros fid sg I. rewrite H. clear E H. pose proof (table_keys is_tar is_zipfile check_deflate) as N.
  assert (Forall (fun s => In (fst s, mkFormat (Some (map ascii_of_nat (snd s))) None) (file_formats is_tar is_zipfile check_deflate) /\ map ascii_of_nat (snd s) <> []) signatures) as A.
  { unfold signatures. repeat apply Forall_cons; try apply Forall_nil; cbn [fst snd]; (split; [|discriminate]); unfold file_formats; repeat first [left; reflexivity|right]. }
  rewrite Forall_forall in A. specialize (A _ I). cbn [fst snd] in A. destruct A as [A Nm]. revert N A. generalize (file_formats is_tar is_zipfile check_deflate). intros formats N A.
  rewrite <- (proj1 (C43_accepts data pos Hp) _ Nm). split.
  - intros (info & Ii & X). apply (NoDup_dget Z.eqb Z.eqb_spec formats fid _ N) in A. apply (NoDup_dget Z.eqb Z.eqb_spec formats fid _ N) in Ii. assert (info = mkFormat (Some (map ascii_of_nat sg)) None) as -> by congruence. exact X.
  - intros X. eexists. split; [exact A|exact X].
Qed.
Print Assumptions C51_signatures.

Definition ex_no : checker := fun _ p => (Ok false, p).
Example C51_example :
  let formats := file_formats ex_no ex_no ex_no in
  let t := recompute_cached_magic_bytes ([], []) formats in
  (forall c, In c [ex_no; ex_no; ex_no] -> forall data pos, 0 <= pos -> exists b, fst (c data pos) = Ok b /\ (b = true -> pos + 2 <= Z.of_nat (length data))) /\
  detect_formats formats t ($"SQLite format 3" ++ [zero]) 0 = (Ok [260; 2305], 0) /\
  detect_formats formats t ($"_!<arch>" ++ [chr 10]) 1 = (Ok [263], 1) /\
  detect_formats formats t $"x<HTML >" 1 = (Ok [2307], 1) /\
  detect_formats formats t $"B" 0 = (Ok [], 0).
Proof.
  cbn zeta. split; [|repeat split; vm_compute; reflexivity]. intros c [<-|[<-|[<-|[]]]] data pos _; (exists false; split; [reflexivity|discriminate]).
Qed.

(** In general files with less than two bytes are not looked at: a format with one magic byte is missed. *)
Theorem C51_small_refuted :
  exists formats data, NoDup (map fst formats) /\ fst (might_be_format data 0 (snd (hd (0, mkFormat None None) formats))) = Ok true /\
    fst (detect_formats formats (recompute_cached_magic_bytes ([], []) formats) data 0) = Ok [].
Proof. exists [(1, mkFormat (Some $"x") None)], $"x". split; [repeat constructor; intros []|]. split; reflexivity. Qed.
Print Assumptions C51_small_refuted.

(** ** C52 *)

(** C52: LZ4 and Zstandard files are recognized exactly if the magic number follows after any number of complete skippable
    frames; the checks do not raise. *)
Theorem C52_frames :
  forall (data : str) (pos : Z), 0 <= pos ->
  (exists b, fst (check_lz4_header data pos) = Ok b /\ (b = true <-> exists q, skippable data pos q /\ has_number data q 4 407708164)) /\
  (exists b, fst (check_zstandard_header data pos) = Ok b /\ (b = true <-> exists q, skippable data pos q /\ has_number data q 4 4247762216)).
Proof. intros data pos Hp. split; apply check_frames_spec; (unfold plain; lia || exact Hp). Qed.
Print Assumptions C52_frames.

Definition ex_frames : str := $"_" ++ map chr [90; 42; 77; 24; 3; 0; 0; 0; 1; 2; 3; 80; 42; 77; 24; 0; 0; 0; 0; 4; 34; 77; 24]%nat.
Example C52_example :
  skippable ex_frames 1 20 /\ has_number ex_frames 20 4 407708164 /\ fst (check_lz4_header ex_frames 1) = Ok true /\ fst (check_zstandard_header ex_frames 1) = Ok false.
Proof.
  assert (forall p n v, 0 <= p -> (0 < n)%nat -> p + Z.of_nat n <= len ex_frames -> little (zslice ex_frames p (Z.of_nat n)) = v -> has_number ex_frames p n v) as H by (intros; apply has_number_slice; auto).
  split; [|split; [apply H; vm_compute; congruence || lia|split; vm_compute; reflexivity]].
  apply (one_frame ex_frames 1 20 407710298 3); [lia|apply H; vm_compute; congruence || lia|apply H; vm_compute; congruence || lia|].
  apply (one_frame ex_frames 12 20 407710288 0); [lia|apply H; vm_compute; congruence || lia|apply H; vm_compute; congruence || lia|]. apply no_frames.
Qed.

(** ** C53 *)

(** C53: at the start of a file the search for SquashFS finds the first superblock within the given distance, or reports that
    there is none, and restores the position. *)
Theorem C53_first :
  forall (file : str) (maxSkip : Z), 0 <= maxSkip ->
  exists r, find_squashfs_offset file 0 maxSkip = (Ok r, 0) /\
  (r = -1 /\ (forall o, 0 <= o <= maxSkip -> ~ superblock file o) \/
   0 <= r <= maxSkip /\ superblock file r /\ forall o, 0 <= o < r -> ~ superblock file o).
Proof. intros. now apply squashfs_offset. Qed.
Print Assumptions C53_first.

Definition ex_superblock : str := $"hsqs" ++ map chr [0; 0; 0; 0; 0; 0; 0; 0; 0; 0; 2; 0; 0; 0; 0; 0; 4; 0; 17; 0; 0; 0; 0; 0; 4; 0; 0; 0]%nat.
Example C53_example :
  superblock ($"ELF" ++ ex_superblock) 3 /\ find_squashfs_offset ($"hsqs" ++ ex_superblock) 0 100 = (Ok 4, 0) /\ find_squashfs_offset ($"hsqs" ++ ex_superblock) 0 3 = (Ok (-1), 0).
Proof.
  split; [|split; vm_compute; reflexivity].
  assert (exists b, fst (is_squashfs ($"ELF" ++ ex_superblock) 3) = Ok b /\ (b = true <-> superblock ($"ELF" ++ ex_superblock) 3)) as (b & E & H) by (apply squashfs_check; lia).
  apply H. vm_compute in E. congruence.
Qed.

(** From another position it searches for the magic bytes after that position but looks for the rest at offsets from the start of the file:
    an image that is there is not found. *)
Theorem C53_position_refuted :
  exists file pos o, 0 <= pos <= o /\ o <= pos + 100 /\ superblock file o /\ find_squashfs_offset file pos 100 = (Ok (-1), pos).
Proof.
  exists ($"ELF" ++ ex_superblock), 1, 3. split; [lia|]. split; [lia|]. split; [apply C53_example|]. vm_compute. reflexivity.
Qed.
Print Assumptions C53_position_refuted.

(** ** C54 *)

(** C54: the checks of the other formats accept exactly the files with the following bytes at the current position [p], and none of
    them raises. *)
Theorem C54_signatures :
  forall (data : str) (p : Z), 0 <= p ->
  let accepts (c : checker) (P : Prop) := exists b, fst (c data p) = Ok b /\ (b = true <-> P) in
  accepts is_avi (stands_at data p $"RIFF" /\ stands_at data (p + 8) $"AVI ") /\
  accepts is_cpio (stands_at data p $"07070" \/ stands_at data p (map ascii_of_nat [113; 199]%nat) \/ stands_at data p (map ascii_of_nat [199; 113]%nat)) /\
  accepts is_iso9660 (stands_at data (p + 32769) $"CD001" \/ stands_at data (p + 38913) $"NSR0") /\
  accepts is_bzip2 (stands_at data p $"BZh" /\ stands_at data (p + 4) (map ascii_of_nat [49; 65; 89; 38; 83; 89]%nat)) /\
  accepts check_encrypted_sqlar (p + 16 <= Z.of_nat (length data)) /\
  (** a zlib header: method 8, window of at most 32 KiB, checksum, no preset dictionary *)
  accepts check_zlib_header (exists c f, stands_at data p [c; f] /\
    let cmf := Z.of_nat (nat_of_ascii c) in let flags := Z.of_nat (nat_of_ascii f) in
    cmf mod 16 = 8 /\ cmf / 16 <= 7 /\ (256 * cmf + flags) mod 31 = 0 /\ (flags / 32) mod 2 = 0) /\
  (** the sizes in the header of an ASAR archive with n bytes of JSON *)
  accepts is_asar (exists n, has_number data (p + 12) 4 n /\ has_number data p 4 4 /\
    has_number data (p + 4) 4 ((n + 3) / 4 * 4 + 8) /\ has_number data (p + 8) 4 ((n + 3) / 4 * 4 + 4)) /\
  accepts is_html_file (html (firstn 512 (skipn (Z.to_nat p) data))) /\
  accepts is_squashfs (superblock data p).
Proof.
  intros data p Hp accepts. split; [destruct (avi_check data p Hp) as (b & E & H); exists b; now rewrite E|]. split; [now apply cpio_check|]. split; [now apply iso_check|]. split; [now apply bzip2_check|].
  split; [now apply sqlar_check|]. split; [now apply zlib_check|]. split; [destruct (asar_check data p Hp) as (b & E & H); exists b; now rewrite E|].
  split; [destruct (html_check data p Hp) as (b & E & H); exists b; now rewrite E|]. now apply squashfs_check.
Qed.
Print Assumptions C54_signatures.

Example C54_example :
  fst (is_html_file ($"text" ++ [chr 10] ++ $"<A" ++ map chr [9; 10]%nat ++ $"HREF=x") 0) = Ok false /\ fst (is_html_file ($"text" ++ [chr 10] ++ $"<A" ++ map chr [9; 10]%nat ++ $"HREF >") 0) = Ok true /\
  fst (check_zlib_header (map chr [0; 120; 156]%nat) 1) = Ok true /\ fst (check_zlib_header (map chr [0; 120; 157]%nat) 1) = Ok false.
Proof. repeat split; vm_compute; reflexivity. Qed.
