From Coq Require Import Ascii String.
From Verif Require Import PyBase PyDict PyStr Path_Model Path_Spec Path_Proofs FileInfo Strip_Model Index_Model Index_Spec Index_Proofs Build_Proofs
  Tar_Model Tar_Spec.
Local Open Scope Z_scope.

Definition heads (start : nat) (l : list (nat * member * list block)) : list (nat * member) :=
  map (fun '(pos, m, _) => ((start + pos)%nat, m)) l.

Lemma scan_tarball bs l : tarball bs l -> forall pre fuel, (length bs < fuel)%nat ->
  scan false fuel (length pre) (pre ++ bs) = (heads (length pre) l, true).
Proof.
  induction 1 as [bs E|m ext body rest l Ee Eb Ht IH]; intros pre fuel F; (destruct fuel as [|fuel]; [lia|]).
  - cbn [scan heads map]. rewrite nth_error_app2, Nat.sub_diag by lia. destruct E as [->|[rest ->]]; cbn [nth_error].
    + rewrite app_nil_r, Nat.leb_refl. reflexivity.
    + reflexivity.
  - cbn [scan]. rewrite nth_error_app2, Nat.sub_diag by lia. cbn [nth_error].
    specialize (IH (pre ++ Head m :: ext ++ body) fuel).
    replace ((pre ++ Head m :: ext ++ body) ++ rest) with (pre ++ Head m :: ext ++ body ++ rest) in IH
      by (cbn [app]; rewrite <- ?app_assoc; cbn [app]; rewrite <- ?app_assoc; reflexivity).
    replace (length (pre ++ Head m :: ext ++ body)) with (length pre + 1 + m_extra m + m_blocks m)%nat in IH
      by (rewrite app_length; cbn [length]; rewrite app_length; lia).
    rewrite IH by (cbn [length] in F; rewrite !app_length in F; lia).
    unfold heads. cbn [map]. rewrite map_map, Nat.add_0_r. do 2 f_equal. apply map_ext. intros [[pos m'] b]. f_equal. lia.
Qed.

Lemma members_tarball bs l : tarball bs l -> members false bs = (heads 0 l, true).
Proof. intros H. exact (scan_tarball bs l H [] (S (length bs)) ltac:(lia)). Qed.

(** Where the data of a member is. *)
Lemma tarball_body bs l : tarball bs l -> forall pos m body, In (pos, m, body) l ->
  (exists pre post, bs = pre ++ body ++ post /\ length pre = (pos + 1 + m_extra m)%nat) /\ nth_error bs pos = Some (Head m)
  /\ length body = m_blocks m.
Proof.
  induction 1 as [bs E|m ext body rest l Ee Eb Ht IH]; intros pos m' b I; [destruct I|].
  destruct I as [E|I].
  - injection E as <- <- <-. split; [|split; [reflexivity|assumption]]. exists (Head m :: ext), rest. split; [reflexivity|]. cbn [length]. lia.
  - apply in_map_iff in I as ([[pos' m''] b'] & E & I). injection E as <- <- <-. destruct (IH _ _ _ I) as ((pre & post & -> & L) & N & Lb).
    split; [|split; [|assumption]].
    + exists (Head m :: ext ++ body ++ pre), post. split; [cbn [app]; rewrite <- !app_assoc; reflexivity|].
      cbn [length]. rewrite !app_length. lia.
    + cbn [Nat.add]. replace (S (m_extra m + m_blocks m + pos'))%nat with (length (Head m :: ext ++ body) + pos')%nat
        by (cbn [length]; rewrite app_length; lia).
      replace (Head m :: ext ++ body ++ pre ++ b' ++ post) with ((Head m :: ext ++ body) ++ pre ++ b' ++ post)
        by (cbn [app]; rewrite <- app_assoc; reflexivity).
      generalize (Head m :: ext ++ body). intros front. rewrite nth_error_app2 by lia. rewrite <- N. f_equal. lia.
Qed.

Lemma split_last_written loc : Forall proper_name loc ->
  exists a b, split_last (written loc) = (a, b) /\ a ++ slash :: b = written loc /\ ~ In slash b.
Proof.
  intros P. destruct loc as [|n l _] using rev_ind.
  - exists [], []. repeat split; intros [].
  - apply Forall_app in P as [Pl Pn]. apply Forall_inv in Pn. exists (folder_of l), n. unfold split_last.
    rewrite rsplit_written by assumption. split; [reflexivity|]. rewrite written_snoc. split; [reflexivity|]. apply Pn.
Qed.

Lemma firstn_app_exact {X} (a b : list X) : firstn (length a) (a ++ b) = a.
Proof. rewrite firstn_app, Nat.sub_diag, firstn_all. apply app_nil_r. Qed.
Lemma skipn_app_exact {X} (a b : list X) : skipn (length a) (a ++ b) = b.
Proof. rewrite skipn_app, Nat.sub_diag, skipn_all. reflexivity. Qed.

(** [bs] lies in [archive] from byte [start] on. *)
Definition lies_at (archive bs : list block) (start : Z) : Prop :=
  exists pre post, archive = pre ++ bs ++ post /\ start = 512 * Z.of_nat (length pre).

Lemma lies_blocks archive bs start : lies_at archive bs start -> blocks_at archive start (length bs) = bs.
Proof.
  intros (pre & post & -> & ->). unfold blocks_at. replace (512 * _ / 512) with (Z.of_nat (length pre)) by (rewrite Z.mul_comm, Z.div_mul; lia).
  rewrite Nat2Z.id, skipn_app_exact. apply firstn_app_exact.
Qed.

Lemma lies_body archive bs start l pos m body : lies_at archive bs start -> tarball bs l -> In (pos, m, body) l ->
  lies_at archive body (start + 512 * Z.of_nat (pos + 1 + m_extra m)).
Proof.
  intros (pre & post & -> & ->) Ht I. destruct (tarball_body bs l Ht pos m body I) as ((p & q & -> & L) & _ & _).
  exists (pre ++ p), (q ++ post). split; [rewrite <- !app_assoc; reflexivity|]. rewrite app_length. lia.
Qed.

Section Rows.
  Variable transform : str -> str.
  Definition full_name (prefix : str) (m : member) : str := transform (prefix ++ $"/" ++ m_name m ++ (if isdir m then $"/" else [])).

  Lemma file_row_fields prefix stream depth pos m : let r := file_row transform prefix stream depth pos m in
    full_path r = written (denotes (full_name prefix m)) /\ ~ In slash (r_name r) /\
    r_offsetheader r = stream + 512 * Z.of_nat pos /\ r_offset r = stream + 512 * Z.of_nat (pos + 1 + m_extra m) /\
    r_size r = m_size m /\ r_mtime r = m_mtime m /\ r_mode r = full_mode m /\ r_linkname r = m_link m /\ r_uid r = m_uid m /\
    r_gid r = m_gid m /\ r_issparse r = m_sparse m.
  Proof.
    unfold file_row. rewrite normpath_written. change (transform _) with (full_name prefix m).
    destruct (split_last_written (denotes (full_name prefix m)) (denotes_proper _)) as (a & b & E & W & N). rewrite E.
    cbn [r_offsetheader r_offset r_size r_mtime r_mode r_linkname r_uid r_gid r_issparse r_name]. unfold full_path. cbn [r_path r_name].
    repeat split; assumption.
  Qed.

  Lemma file_row_describes archive bs l prefix start depth pos m body : tarball bs l -> lies_at archive bs start -> In (pos, m, body) l ->
    describes transform archive prefix (start + 512 * Z.of_nat pos) m body (file_row transform prefix start depth pos m).
  Proof.
    intros Ht Hl I. pose proof (file_row_fields prefix start depth pos m) as (F1 & F2 & F3 & F4 & F5 & F6 & F7 & F8 & F9 & F10 & F11).
    unfold describes. rewrite F1, F3, F4, F5, F6, F8, F9, F10, F11. repeat split; try assumption.
    apply lies_blocks. now apply (lies_body archive bs start l).
  Qed.
End Rows.

Lemma named_tar_spec m : might_be_tar m = true <-> named_tar m.
Proof.
  unfold might_be_tar, named_tar, isfile. rewrite andb_true_iff, existsb_exists, ends_with_spec. split.
  - intros [(c & I & E) (t & Et)]. split.
    + destruct (char_eqb_spec (m_type m) c) as [->|]; [exact I|discriminate].
    + apply map_eq_app in Et as (a & b & -> & _ & E'). eauto.
  - intros [I (stem & ext & -> & E)]. split.
    + exists (m_type m). split; [exact I|]. now destruct (char_eqb_spec (m_type m) (m_type m)).
    + exists (map lower stem). now rewrite map_app, E.
Qed.

Lemma lower_slash c : lower c <> slash -> c <> slash.
Proof. intros H ->. apply H. reflexivity. Qed.
Lemma tar_ext_no_slash ext : map lower ext = $".tar" -> ~ In slash ext /\ length ext = 4%nat.
Proof.
  intros E. split.
  - intros I. apply (in_map lower) in I. rewrite E in I. cbn in I. intuition discriminate.
  - rewrite <- (map_length lower), E. reflexivity.
Qed.

Lemma lstrip_length (s : str) : (length (lstrip slash s) <= length s)%nat.
Proof.
  induction s as [|x s IH]; [apply le_n|].
  destruct (char_eqb_spec x slash) as [E|N]; [subst x; rewrite lstrip_sep; cbn [length]; lia|rewrite lstrip_id by exact N; lia].
Qed.

Lemma join_no_slash_head loc s t : Forall proper_name loc -> join $"/" loc = s ++ t -> lstrip slash s = s.
Proof.
  intros P E. destruct s as [|c s]; [reflexivity|]. apply lstrip_id. intros ->. pose proof (join_head loc P) as H. rewrite E in H.
  cbn [app] in H. rewrite lstrip_sep in H.
  pose proof (lstrip_length (s ++ t)) as L. rewrite H in L. cbn [length] in L. lia.
Qed.

(** A slash-free suffix of [a ++ slash :: b] is a suffix of [b]. *)
Lemma suffix_of_name (a b s ext : str) : ~ In slash ext -> a ++ slash :: b = s ++ ext -> exists t, b = t ++ ext /\ s = a ++ slash :: t.
Proof.
  intros N. revert s. induction a as [|x a IH]; intros s E.
  - cbn [app] in E. destruct s as [|y s]; cbn [app] in E.
    + exfalso. apply N. rewrite <- E. now left.
    + injection E as <- ->. exists s. split; reflexivity.
  - cbn [app] in E. destruct s as [|y s]; cbn [app] in E.
    + exfalso. apply N. rewrite <- E. right. apply in_app_iff. right. now left.
    + injection E as <- E. destruct (IH s E) as (t & -> & ->). exists t. split; reflexivity.
Qed.

Section Mounting.
  Variable transform : str -> str.
  Variable strip : bool.
  Variable remount : option (str -> str).

  Lemma mount_point_spec prefix stream depth pos m at_ : isdir m = false -> mounted_at transform strip remount prefix m at_ ->
    fst (mount_point strip remount (file_row transform prefix stream depth pos m)) = at_.
  Proof.
    intros D (stripped & Hs & Hat). set (r := file_row _ _ _ _ _ _).
    pose proof (file_row_fields transform prefix stream depth pos m) as (F1 & F2 & _). fold r in F1, F2.
    unfold full_name in F1. rewrite D, app_nil_r in F1. unfold full_path in F1.
    set (loc := denotes _) in F1. set (path := written _) in Hs.
    change (written (denotes (transform (prefix ++ $"/" ++ m_name m)))) with (written loc) in path.
    assert (P : Forall proper_name loc) by apply denotes_proper.
    assert (E : slash :: lstrip slash (r_path r ++ $"/" ++ (if strip && ends_with $".tar" (map lower (r_name r))
                  then firstn (length (r_name r) - 4) (r_name r) else r_name r)) = stripped).
    { destruct Hs as [[-> Hn]|[-> (ext & Ee & Ep)]].
      - destruct (strip && ends_with $".tar" (map lower (r_name r))) eqn:Eb.
        + apply andb_true_iff in Eb as [Es Ew]. apply ends_with_spec in Ew as (t & Et). apply map_eq_app in Et as (u & v & En & _ & Ev).
          exfalso. apply (Hn Es v Ev (r_path r ++ slash :: u)). rewrite <- app_assoc. cbn [app]. rewrite <- En. symmetry. exact F1.
        + change ($"/" ++ r_name r) with (slash :: r_name r). rewrite F1. unfold path, written. rewrite lstrip_sep, join_head by assumption. reflexivity.
      - destruct (tar_ext_no_slash ext Ee) as [Ns L4].
        destruct (suffix_of_name (r_path r) (r_name r) stripped ext Ns (eq_trans F1 Ep)) as (t & En & Es).
        assert (Ew : ends_with $".tar" (map lower (r_name r)) = true).
        { apply ends_with_spec. exists (map lower t). now rewrite En, map_app, Ee. }
        rewrite Ew. cbn [andb]. rewrite En, app_length, L4, Nat.add_sub. rewrite firstn_app_exact.
        change ($"/" ++ t) with (slash :: t). rewrite <- Es.
        unfold path, written in Ep. destruct stripped as [|c s]; [destruct (r_path r); discriminate|].
        cbn [app] in Ep. injection Ep as <- Ep. rewrite lstrip_sep. f_equal. now apply (join_no_slash_head loc s ext). }
    unfold mount_point. cbv zeta. rewrite E. destruct remount; cbn [fst]; congruence.
  Qed.
End Mounting.

Lemma named_not_dir m : named_tar m -> isdir m = false.
Proof. intros [I _]. unfold isdir. cbn in I. destruct I as [<-|[<-|[<-|[<-|[]]]]]; reflexivity. Qed.

(** Every held member has a describing row among the inserted ones. *)
Lemma held_inserted transform strip remount archive levels prefix start bs prefix' header m body :
  holds (mounted_at transform strip remount) levels prefix start bs prefix' header m body ->
  forall depth, lies_at archive bs start ->
  exists r, In r (inserted_rows (index_part transform strip remount false archive levels depth bs prefix start)) /\
    describes transform archive prefix' header m body r.
Proof.
  induction 1 as [levels prefix start bs l pos m body Ht I|levels prefix start bs l pos m body at_ prefix' header m' body' Ht I Hn Hsz Hm Hh IH];
    intros depth Hl; cbn [index_part]; rewrite (members_tarball bs l Ht).
  - exists (file_row transform prefix start depth pos m). split; [|now apply (file_row_describes transform archive bs l)].
    unfold inserted_rows. cbn [flat_map]. apply in_app_iff. left. apply in_flat_map. exists (pos, m). split.
    + unfold heads. apply in_map_iff. exists (pos, m, body). split; [reflexivity|assumption].
    + unfold file_rows. destruct (char_eqb (m_type m) "D"); now left.
  - cbn [andb Nat.eqb negb].
    pose proof (lies_body archive bs start l pos m body Hl Ht I) as Hb.
    pose proof (file_row_fields transform prefix start depth pos m) as (F1 & F2 & F3 & F4 & F5 & _).
    destruct (IH (depth + 1) Hb) as (r & Hr & Hd). exists r. split; [|assumption].
    unfold inserted_rows. cbn [flat_map]. apply in_app_iff. right. apply in_flat_map in Hr as (i & Hi & Hr).
    apply in_flat_map. exists i. split; [|assumption]. apply in_flat_map. exists (pos, m). split.
    + apply filter_In. split; [|now apply named_tar_spec]. unfold heads. apply in_map_iff. exists (pos, m, body). split; [reflexivity|assumption].
    + pose proof (mount_point_spec transform strip remount prefix start depth pos m at_ (named_not_dir m Hn) Hm) as Em.
      destruct (mount_point strip remount (file_row transform prefix start depth pos m)) as [path [folder name]]. cbn [fst] in Em. subst path.
      apply in_app_iff. left. rewrite F4, F5.
      replace (region archive (start + 512 * Z.of_nat (pos + 1 + m_extra m)) (m_size m)) with body; [exact Hi|].
      unfold region. rewrite Hsz. replace (512 * Z.of_nat (length body) / 512) with (Z.of_nat (length body)) by (rewrite Z.mul_comm, Z.div_mul; lia).
      rewrite Nat2Z.id. symmetry. exact (lies_blocks archive body _ Hb).
Qed.

(** ** The final table *)

(** [bs] is part of [archive] from byte [start] on. *)
Definition part_of (archive bs : list block) (start : Z) : Prop :=
  exists k, start = 512 * Z.of_nat k /\ forall i b, nth_error bs i = Some b -> nth_error archive (k + i) = Some b.

Lemma lies_part archive bs start : lies_at archive bs start -> part_of archive bs start.
Proof.
  intros (pre & post & -> & ->). exists (length pre). split; [reflexivity|]. intros i b E.
  rewrite nth_error_app2 by lia. replace (length pre + i - length pre)%nat with i by lia.
  rewrite nth_error_app1; [assumption|]. apply nth_error_Some. congruence.
Qed.

Lemma region_part archive k size : part_of archive (region archive (512 * Z.of_nat k) size) (512 * Z.of_nat k).
Proof.
  exists k. split; [reflexivity|]. intros i b E. unfold region in E.
  replace (512 * Z.of_nat k / 512) with (Z.of_nat k) in E by (rewrite Z.mul_comm, Z.div_mul; lia). rewrite Nat2Z.id in E.
  assert (E' : nth_error (skipn k archive) i = Some b).
  { revert E. generalize (skipn k archive) (Z.to_nat (size / 512)). clear. intros l n. revert i n.
    induction l as [|x l IH]; intros i n; [now destruct n, i|]. destruct n as [|n]; [destruct i; discriminate|]. destruct i as [|i]; [trivial|]. apply IH. }
  revert E'. generalize archive. clear. induction k as [|k IH]; intros l E; [exact E|]. destruct l as [|x l]; [destruct i; discriminate|].
  apply IH. exact E.
Qed.

Lemma scan_heads ig bs fuel : forall pos p m, In (p, m) (fst (scan ig fuel pos bs)) -> nth_error bs p = Some (Head m).
Proof.
  induction fuel as [|fuel IH]; intros pos p m; cbn [scan]; [intros []|].
  destruct (nth_error bs pos) as [[|m'|c]|] eqn:E; try (intros []).
  - destruct ig; [apply IH|intros []].
  - destruct (scan ig fuel _ bs) as [l c] eqn:Es. cbn [fst]. intros [E'|I]; [injection E' as <- <-; exact E|].
    apply (IH (pos + 1 + m_extra m' + m_blocks m')%nat). rewrite Es. exact I.
  - destruct ig; [apply IH|intros []].
Qed.

(** What the offsets of a row with a header offset that is a multiple of 512 say. *)
Definition placed (archive : list block) (r : row) : Prop :=
  exists h m, nth_error archive h = Some (Head m) /\
    (r_offsetheader r = 512 * Z.of_nat h + 1 \/
     r_offsetheader r = 512 * Z.of_nat h /\ r_offset r = 512 * Z.of_nat (h + 1 + m_extra m) /\ r_size r = m_size m /\ r_mtime r = m_mtime m /\
     r_linkname r = m_link m /\ r_uid r = m_uid m /\ r_gid r = m_gid m /\ r_issparse r = m_sparse m).

Lemma file_row_placed transform archive bs start prefix depth pos m : part_of archive bs start -> nth_error bs pos = Some (Head m) ->
  placed archive (file_row transform prefix start depth pos m) /\
  exists h, nth_error archive h = Some (Head m) /\ r_offsetheader (file_row transform prefix start depth pos m) = 512 * Z.of_nat h.
Proof.
  intros (k & -> & H) E. pose proof (file_row_fields transform prefix (512 * Z.of_nat k) depth pos m) as (F1 & F2 & F3 & F4 & F5 & F6 & F7 & F8 & F9 & F10 & F11).
  split.
  - exists (k + pos)%nat, m. split; [now apply H|]. right. rewrite F3, F4, F5, F6, F8, F9, F10, F11. repeat split; lia.
  - exists (k + pos)%nat. split; [now apply H|]. rewrite F3. lia.
Qed.

Lemma inserted_placed transform strip remount ig archive levels : forall depth bs prefix start, part_of archive bs start ->
  forall r, In r (inserted_rows (index_part transform strip remount ig archive levels depth bs prefix start)) -> placed archive r.
Proof.
  induction levels as [|levels IH]; intros depth bs prefix start Hp r Hr; [destruct Hr|].
  cbn [index_part] in Hr. destruct (members ig bs) as [found complete] eqn:Em.
  assert (Hf : forall p m, In (p, m) found -> nth_error bs p = Some (Head m)).
  { intros p m I. apply (scan_heads ig bs (S (length bs)) 0). unfold members in Em. rewrite Em. exact I. }
  unfold inserted_rows in Hr. cbn [flat_map] in Hr. apply in_app_iff in Hr as [Hr|Hr].
  - apply in_flat_map in Hr as ([pos m] & I & Hr). destruct (file_row_placed transform archive bs start prefix depth pos m Hp (Hf pos m I)) as [P (h & Eh & Ho)].
    unfold file_rows in Hr. destruct (char_eqb (m_type m) "D").
    + destruct Hr as [<-|[<-|[]]]; [assumption|]. exists h, m. split; [assumption|]. left. cbn [r_offsetheader]. lia.
    + destruct Hr as [<-|[]]. assumption.
  - apply in_flat_map in Hr as (i & Hi & Hr). apply in_flat_map in Hi as ([pos m] & I & Hi).
    assert (I' : In (pos, m) found) by (destruct (complete && negb (Nat.eqb levels 0)); [now apply filter_In in I|destruct I]).
    destruct (file_row_placed transform archive bs start prefix depth pos m Hp (Hf pos m I')) as [P (h & Eh & Ho)].
    destruct (mount_point strip remount (file_row transform prefix start depth pos m)) as [path [folder name]].
    apply in_app_iff in Hi as [Hi|[<-|[<-|[]]]].
    + assert (Hq : part_of archive (region archive (r_offset (file_row transform prefix start depth pos m)) (r_size (file_row transform prefix start depth pos m)))
                     (r_offset (file_row transform prefix start depth pos m))).
      { destruct Hp as (k & -> & _). pose proof (file_row_fields transform prefix (512 * Z.of_nat k) depth pos m) as (_ & _ & _ & F4 & _).
        rewrite F4. replace (512 * Z.of_nat k + 512 * Z.of_nat (pos + 1 + m_extra m)) with (512 * Z.of_nat (k + (pos + 1 + m_extra m))) by lia.
        apply region_part. }
      apply (IH (depth + 1) _ path _ Hq r). apply in_flat_map. exists i. auto.
    + destruct Hr as [<-|[]]. exists h, m. split; [assumption|]. unfold mounted_row. cbv zeta. cbn [r_offsetheader r_offset r_size r_mtime r_linkname r_uid r_gid r_issparse].
      destruct (negb _ || negb _); [right|left; lia]. destruct P as (h' & m' & Eh' & [P|P]); [lia|].
      assert (h' = h) by lia. subst h'. rewrite Eh in Eh'. injection Eh' as <-. exact P.
    + destruct Hr as [<-|[]]. exact P.
Qed.

Lemma describes_same_key transform archive prefix header h m body r r' : header = 512 * Z.of_nat h -> nth_error archive h = Some (Head m) ->
  describes transform archive prefix header m body r -> r_offset r = 512 * Z.of_nat (h + 1 + m_extra m) ->
  ukey r' = ukey r -> placed archive r' -> describes transform archive prefix header m body r'.
Proof.
  intros -> Eh (D1 & D2 & D3 & D4 & D5 & D6 & D7 & D8 & D9 & D10) Do K (h' & m' & Eh' & P). unfold ukey in K. injection K as K1 K2 K3.
  unfold describes, full_path. rewrite K1, K2, K3. fold (full_path r). destruct P as [P|P]; [lia|]. destruct P as (P1 & P2 & P3 & P4 & P5 & P6 & P7 & P8).
  assert (h' = h) by lia. subst h'. rewrite Eh in Eh'. injection Eh' as <-. rewrite P2, P3, P4, P5, P6, P7, P8. rewrite Do in D10.
  repeat split; assumption.
Qed.

Lemma held_at transform strip remount archive levels prefix start bs prefix' header m body :
  holds (mounted_at transform strip remount) levels prefix start bs prefix' header m body -> lies_at archive bs start ->
  exists h, header = 512 * Z.of_nat h /\ nth_error archive h = Some (Head m).
Proof.
  induction 1 as [levels prefix start bs l pos m body Ht I|levels prefix start bs l pos m body at_ prefix' header m' body' Ht I Hn Hsz Hm Hh IH]; intros Hl.
  - destruct (lies_part archive bs start Hl) as (k & -> & H). exists (k + pos)%nat. split; [lia|]. apply H.
    now destruct (tarball_body bs l Ht pos m body I) as (_ & N & _).
  - apply IH. now apply (lies_body archive bs start l).
Qed.

Lemma held_indexed transform strip remount archive levels prefix header m body :
  holds (mounted_at transform strip remount) levels [] 0 archive prefix header m body ->
  exists r, In r (build (index_part transform strip remount false archive levels 0 archive [] 0)) /\
    describes transform archive prefix header m body r.
Proof.
  intros H. assert (Hl : lies_at archive archive 0) by (exists [], []; rewrite app_nil_r; split; reflexivity).
  destruct (held_inserted _ _ _ archive _ _ _ _ _ _ _ _ H 0 Hl) as (r & Hr & Hd).
  destruct (held_at _ _ _ archive _ _ _ _ _ _ _ _ H Hl) as (h & Eh & Hh).
  set (is := index_part _ _ _ _ _ _ _ _ _ _) in *.
  assert (Hp : forall x, In x (inserted_rows is) -> placed archive x).
  { intros x. apply inserted_placed. now apply lies_part. }
  destruct (replace_all_covers _ r Hr) as (r' & Hr' & K). exists r'. split; [now apply build_keeps|].
  assert (Hi : In r' (inserted_rows is)).
  { apply replace_all_In in Hr' as (p & q & -> & _). apply in_app_iff. right. now left. }
  apply (describes_same_key transform archive prefix header h m body r); try assumption; [|now apply Hp].
  destruct (Hp r Hr) as (h' & m' & Eh' & P). destruct Hd as (_ & _ & D3 & _). destruct P as [P|P]; [lia|].
  assert (h' = h) by lia. subst h'. rewrite Hh in Eh'. injection Eh' as <-. apply P.
Qed.

(** ** Nothing else *)
Lemma file_row_backend transform prefix stream depth pos m : backend_row (file_row transform prefix stream depth pos m).
Proof.
  pose proof (file_row_fields transform prefix stream depth pos m) as (F1 & F2 & _). split; [assumption|].
  set (r := file_row _ _ _ _ _ _) in *. set (loc := denotes _) in F1. assert (P : Forall proper_name loc) by apply denotes_proper.
  destruct loc as [|n l _] using rev_ind.
  - left. unfold full_path in F1. unfold root_row. destruct (r_path r) as [|c p]; [cbn [app] in F1; injection F1 as F1; split; [reflexivity|exact F1]|].
    cbn [app] in F1. injection F1 as _ F1. destruct p; discriminate.
  - right. apply Forall_app in P as [Pl Pn]. apply Forall_inv in Pn. exists l, n. split; [assumption|]. split; assumption.
Qed.

Lemma flat_rows transform strip remount archive l : tarball archive l ->
  forall r, In r (build (index_part transform strip remount false archive 1 0 archive [] 0)) ->
  (exists pos m body, In (pos, m, body) l /\ describes transform archive [] (512 * Z.of_nat pos) m body r /\ r_mode r = full_mode m) \/
  (exists pos m body, In (pos, m, body) l /\ incremental_row [] transform pos m r) \/
  (exists below pre n, In below (build (index_part transform strip remount false archive 1 0 archive [] 0)) /\ generated_for below r pre n).
Proof.
  intros Ht r Hr. set (is := index_part _ _ _ _ _ _ _ _ _ _) in *.
  assert (Hl : lies_at archive archive 0) by (exists [], []; rewrite app_nil_r; split; reflexivity).
  assert (Hrows : forall x, In x (inserted_rows is) -> exists pos m body, In (pos, m, body) l /\ In x (file_rows transform [] 0 0 pos m)).
  { intros x Hx. unfold is in Hx. cbn [index_part] in Hx. rewrite (members_tarball archive l Ht) in Hx. unfold inserted_rows in Hx. cbn [flat_map andb negb Nat.eqb] in Hx.
    rewrite app_nil_r in Hx. apply in_flat_map in Hx as ([pos m] & I & Hx). unfold heads in I. apply in_map_iff in I as ([[pos' m'] body] & E & I).
    injection E as <- <-. exists pos', m', body. auto. }
  assert (Hcase : forall x, In x (inserted_rows is) ->
    (exists pos m body, In (pos, m, body) l /\ x = file_row transform [] 0 0 pos m) \/
    (exists pos m body, In (pos, m, body) l /\ incremental_row [] transform pos m x /\ backend_row x)).
  { intros x Hx. destruct (Hrows x Hx) as (pos & m & body & I & Hi). unfold file_rows in Hi.
    destruct (char_eqb_spec (m_type m) "D"%char) as [E|N]; [|destruct Hi as [<-|[]]; left; eauto].
    destruct Hi as [<-|[<-|[]]]; [left; eauto|]. right. exists pos, m, body. split; [assumption|].
    pose proof (file_row_fields transform [] 0 0 pos m) as (F1 & _ & F3 & _).
    pose proof (file_row_backend transform [] 0 0 pos m) as B. split; [|exact B].
    unfold incremental_row. cbn [r_offsetheader r_size r_mode]. unfold full_path in *. cbn [r_path r_name] in *. rewrite F1, F3. unfold full_name.
    unfold isdir. rewrite E. cbn [char_eqb Ascii.eqb Bool.eqb]. cbn [char_eqb]. rewrite app_nil_r. repeat split; lia. }
  assert (Hb : forall x, In x (inserted_rows is) -> backend_row x).
  { intros x Hx. destruct (Hcase x Hx) as [(pos & m & body & _ & ->)|(pos & m & body & _ & _ & B)]; [apply file_row_backend|exact B]. }
  assert (Hfin : forall x, In x (inserted_rows is) ->
    (exists pos m body, In (pos, m, body) l /\ describes transform archive [] (512 * Z.of_nat pos) m body x /\ r_mode x = full_mode m) \/
    (exists pos m body, In (pos, m, body) l /\ incremental_row [] transform pos m x)).
  { intros x Hx. destruct (Hcase x Hx) as [(pos & m & body & I & ->)|(pos & m & body & I & D & _)]; [left|right; exists pos, m, body; auto].
    exists pos, m, body. split; [assumption|]. split; [exact (file_row_describes transform archive archive l [] 0 0 pos m body Ht Hl I)|].
    exact (proj1 (proj2 (proj2 (proj2 (proj2 (proj2 (proj2 (file_row_fields transform [] 0 0 pos m)))))))). }
  destruct (built_rows is Hb) as (B1 & B2 & _). destruct (B2 r Hr) as [L|(below & pre & n & Hbelow & G & _)].
  - destruct L as (p & q & E & _). destruct (Hfin r) as [H|H]; [rewrite E; apply in_app_iff; right; now left|left; exact H|right; left; exact H].
  - right. right. destruct (replace_all_covers _ below Hbelow) as (b' & Hb' & K).
    assert (Hib : In b' (inserted_rows is)) by (apply replace_all_In in Hb' as (p & q & -> & _); apply in_app_iff; right; now left).
    exists b', pre, n. split; [now apply build_keeps|].
    assert (P1 : placed archive below) by (apply (inserted_placed transform strip remount false archive 1 0 archive [] 0 (lies_part _ _ _ Hl)); exact Hbelow).
    unfold generated_for in *. destruct G as (G1 & G2 & G3 & G4 & G5 & G6 & G7 & G8 & G9 & G10 & G11 & rest & name & Gl & Gn & Gf).
    unfold ukey in K. injection K as K1 K2 K3. rewrite G10, K3. repeat split; try assumption.
    + rewrite G11. destruct (Hcase below Hbelow) as [(p1 & m1 & b1 & I1 & E1)|(p1 & m1 & b1 & I1 & D1 & _)],
        (Hcase b' Hib) as [(p2 & m2 & b2 & I2 & E2)|(p2 & m2 & b2 & I2 & D2 & _)].
      * pose proof (file_row_fields transform [] 0 0 p1 m1) as (_ & _ & F1 & F1' & _). pose proof (file_row_fields transform [] 0 0 p2 m2) as (_ & _ & F2 & F2' & _).
        rewrite E1, E2, F1, F2 in K3. rewrite E1, E2, F1', F2'. assert (p1 = p2) by lia. subst p2.
        destruct (tarball_body archive l Ht _ _ _ I1) as (_ & N1 & _). destruct (tarball_body archive l Ht _ _ _ I2) as (_ & N2 & _).
        rewrite N1 in N2. injection N2 as <-. reflexivity.
      * destruct D2 as (_ & _ & D2 & _). pose proof (file_row_fields transform [] 0 0 p1 m1) as (_ & _ & F1 & _). rewrite E1, F1 in K3. lia.
      * destruct D1 as (_ & _ & D1 & _). pose proof (file_row_fields transform [] 0 0 p2 m2) as (_ & _ & F2 & _). rewrite E2, F2 in K3. lia.
      * destruct (Hrows below Hbelow) as (p3 & m3 & b3 & I3 & H3). destruct (Hrows b' Hib) as (p4 & m4 & b4 & I4 & H4).
        pose proof (file_row_fields transform [] 0 0 p3 m3) as (_ & _ & F3 & F3' & _). pose proof (file_row_fields transform [] 0 0 p4 m4) as (_ & _ & F4 & F4' & _).
        assert (O3 : exists t, r_offsetheader below = 512 * Z.of_nat p3 + t /\ 0 <= t <= 1 /\ r_offset below = 512 * Z.of_nat (p3 + 1 + m_extra m3)).
        { unfold file_rows in H3. destruct (char_eqb _ _); [destruct H3 as [<-|[<-|[]]]|destruct H3 as [<-|[]]]; cbn [r_offsetheader r_offset];
            [exists 0|exists 1|exists 0]; rewrite ?F3, ?F3'; lia. }
        assert (O4 : exists t, r_offsetheader b' = 512 * Z.of_nat p4 + t /\ 0 <= t <= 1 /\ r_offset b' = 512 * Z.of_nat (p4 + 1 + m_extra m4)).
        { unfold file_rows in H4. destruct (char_eqb _ _); [destruct H4 as [<-|[<-|[]]]|destruct H4 as [<-|[]]]; cbn [r_offsetheader r_offset];
            [exists 0|exists 1|exists 0]; rewrite ?F4, ?F4'; lia. }
        destruct O3 as (t3 & Oa & Ob & Oc), O4 as (t4 & Od & Oe & Of). assert (p3 = p4) by lia. subst p4.
        destruct (tarball_body archive l Ht _ _ _ I3) as (_ & N1 & _). destruct (tarball_body archive l Ht _ _ _ I4) as (_ & N2 & _).
        rewrite N1 in N2. injection N2 as <-. lia.
    + exists rest, name. split; [assumption|]. split; [assumption|]. unfold full_path. rewrite K1, K2. exact Gf.
Qed.

Lemma flat_member transform strip remount archive l : tarball archive l -> forall pos m body, In (pos, m, body) l ->
  In (file_row transform [] 0 0 pos m) (build (index_part transform strip remount false archive 1 0 archive [] 0)).
Proof.
  intros Ht pos m body I. set (is := index_part _ _ _ _ _ _ _ _ _ _).
  assert (Hrows : forall x, In x (inserted_rows is) <-> exists p m' b, In (p, m', b) l /\ In x (file_rows transform [] 0 0 p m')).
  { intros x. unfold is. cbn [index_part]. rewrite (members_tarball archive l Ht). unfold inserted_rows. cbn [flat_map andb negb Nat.eqb].
    rewrite app_nil_r, in_flat_map. split.
    - intros ([p m'] & J & Hx). unfold heads in J. apply in_map_iff in J as ([[p' m''] b] & E & J). injection E as <- <-. exists p', m'', b. auto.
    - intros (p & m' & b & J & Hx). exists (p, m'). split; [|assumption]. unfold heads. apply in_map_iff. exists (p, m', b). auto. }
  assert (Hin : In (file_row transform [] 0 0 pos m) (inserted_rows is)).
  { apply Hrows. exists pos, m, body. split; [assumption|]. unfold file_rows. destruct (char_eqb _ _); now left. }
  destruct (replace_all_covers _ _ Hin) as (r' & Hr' & K). apply build_keeps.
  replace (file_row transform [] 0 0 pos m) with r'; [assumption|].
  assert (Hi : In r' (inserted_rows is)) by (apply replace_all_In in Hr' as (p & q & -> & _); apply in_app_iff; right; now left).
  apply Hrows in Hi as (p & m' & b & J & Hx). unfold ukey in K. injection K as _ _ K.
  pose proof (file_row_fields transform [] 0 0 pos m) as (_ & _ & F & _). pose proof (file_row_fields transform [] 0 0 p m') as (_ & _ & F' & _).
  rewrite F in K. unfold file_rows in Hx.
  assert (E : p = pos /\ r' = file_row transform [] 0 0 p m').
  { destruct (char_eqb _ _); [destruct Hx as [<-|[<-|[]]]|destruct Hx as [<-|[]]]; cbn [r_offsetheader] in K; rewrite F' in K; split; try reflexivity; lia. }
  destruct E as [-> ->]. destruct (tarball_body archive l Ht _ _ _ I) as (_ & N & _), (tarball_body archive l Ht _ _ _ J) as (_ & N' & _). congruence.
Qed.

(** ** Modes *)
Lemma low_land_high a : 0 <= a < 4096 -> Z.land a S_IFMT = 0.
Proof.
  intros H. rewrite <- (Z.mod_small a 4096) by lia. change 4096 with (2 ^ 12). rewrite <- Z.land_ones by lia.
  rewrite <- Z.land_assoc. change (Z.land (Z.ones 12) S_IFMT) with 0. apply Z.land_0_r.
Qed.
Lemma low_land_low a : 0 <= a < 4096 -> Z.land a 4095 = a.
Proof. intros H. change 4095 with (Z.ones 12). rewrite Z.land_ones by lia. apply Z.mod_small. exact H. Qed.

Lemma full_mode_bits m bits : 0 <= m_mode m < 4096 -> type_bits (m_type m) = Some bits -> m_type m <> "4"%char ->
  Z.land (full_mode m) S_IFMT = bits.
Proof. 
  intros Hm Hb N. unfold full_mode. rewrite !Z.land_lor_distr_l, (low_land_high _ Hm), Z.lor_0_l.
  revert Hb N. unfold isdir, isfile, issym, ischr, isfifo. generalize (m_type m). clear. intros c Hb N.
  destruct c as [[] [] [] [] [] [] [] []]; cbn in Hb; try discriminate; injection Hb as <-; try (exfalso; apply N; reflexivity); reflexivity.
Qed.
Lemma full_mode_perm m bits : 0 <= m_mode m < 4096 -> type_bits (m_type m) = Some bits -> m_type m <> "4"%char ->
  Z.land (full_mode m) 4095 = m_mode m.
Proof. 
  intros Hm Hb N. unfold full_mode. rewrite !Z.land_lor_distr_l, (low_land_low _ Hm). 
  revert Hb N. unfold isdir, isfile, issym, ischr, isfifo. generalize (m_type m) (m_mode m). clear. intros c a Hb N.
  destruct c as [[] [] [] [] [] [] [] []]; cbn in Hb; try discriminate; cbn; now rewrite !Z.lor_0_r.
Qed.
