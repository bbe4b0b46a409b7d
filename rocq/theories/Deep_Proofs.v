(** Lemmas about mounted TAR archives that hold TAR archives. *)
From Coq Require Import Ascii String Permutation.
From Verif Require Import PyBase PyDict PyStr Path_Model Path_Spec Path_Proofs FileInfo Union_Model Index_Model Index_Spec Index_Proofs Build_Proofs
  Version_Model MemFile_Spec Stencil_Spec Stencil_Model Stencil_Props Sparse_Model Strip_Model Tar_Model Tar_Spec Tar_Proofs TarMark_Proofs TarRead_Model TarRead_Spec TarRead_Proofs
  SeqIndex_Proofs Front_Spec Front_Model Served_Spec Served_Model Served_Proofs Deep_Spec.
Local Open Scope Z_scope.

(** Every nested archive has a mount point. *)
Lemma mounted_exists transform strip remount prefix m : exists at_, mounted_at transform strip remount prefix m at_.
Proof.
  unfold mounted_at. set (path := written _).
  assert (E : exists stripped, stripped = path /\ (strip = true -> forall ext, map lower ext = $".tar" -> forall stem, path <> stem ++ ext) \/
     strip = true /\ exists ext, map lower ext = $".tar" /\ path = stripped ++ ext).
  { destruct strip; [|exists path; left; split; [reflexivity|discriminate]].
    destruct (ends_with $".tar" (map lower path)) eqn:W.
    - apply ends_with_spec in W as (t & W). apply map_eq_app in W as (u & v & E & _ & V). exists u. right. split; [reflexivity|]. exists v. auto.
    - exists path. left. split; [reflexivity|]. intros _ ext V stem E. assert (ends_with $".tar" (map lower path) = true); [|congruence].
      apply ends_with_spec. exists (map lower stem). now rewrite E, map_app, V. }
  destruct E as (s & E). destruct remount as [f|]; eexists; exists s; (split; [exact E|reflexivity]).
Qed.

(** The name of a mount point holds no slash. *)
Lemma mount_point_name transform strip remount prefix stream depth pos m :
  ~ In slash (snd (snd (mount_point strip remount (file_row transform prefix stream depth pos m)))).
Proof.
  pose proof (file_row_fields transform prefix stream depth pos m) as (_ & F2 & _). set (r := file_row _ _ _ _ _ _) in *.
  unfold mount_point. cbv zeta. set (name := if strip && ends_with $".tar" (map lower (r_name r)) then firstn (length (r_name r) - 4) (r_name r) else r_name r).
  assert (Nn : ~ In slash name).
  { unfold name. destruct (_ && _); [|exact F2]. intros J. apply F2. rewrite <- (firstn_skipn (length (r_name r) - 4) (r_name r)). apply in_app_iff. now left. }
  destruct remount as [f|]; [|exact Nn]. cbn [snd]. unfold split_last. set (path := slash :: lstrip slash (f _)).
  destruct (rsplit1 slash path) as [[a b]|] eqn:E; cbn [snd].
  - now apply rsplit1_Some in E.
  - now apply rsplit1_None in E.
Qed.

Section Deep.
  Variable transform : str -> str.
  Variable strip : bool.
  Variable remount : option (str -> str).
  Variable archive : list block.
  Notation index_part := (index_part transform strip remount false archive).
  Notation M := (mounted_at transform strip remount).

  (** A row of a member. *)
  Definition member_like (prefix : str) (header : Z) (m : member) (x : row) : Prop :=
    full_path x = written (location_of transform prefix m) /\ backend_row x /\
    (m_type m = "D"%char /\ r_offsetheader x = header + 1 \/
     r_offsetheader x = header /\ r_offset x = header + 512 * Z.of_nat (1 + m_extra m) /\ r_size x = m_size m /\ r_mtime x = m_mtime m /\
     r_mode x = full_mode m /\ r_linkname x = m_link m /\ r_uid x = m_uid m /\ r_gid x = m_gid m /\ r_issparse x = m_sparse m).

  Lemma file_row_like prefix start depth pos m : member_like prefix (start + 512 * Z.of_nat pos) m (file_row transform prefix start depth pos m).
  Proof.
    pose proof (file_row_fields transform prefix start depth pos m) as (F1 & F2 & F3 & F4 & F5 & F6 & F7 & F8 & F9 & F10 & F11).
    split; [exact F1|]. split; [apply file_row_backend|]. right. rewrite F4. repeat (split; [assumption || lia|]). assumption.
  Qed.

  Lemma file_rows_like prefix start depth pos m x : In x (file_rows transform prefix start depth pos m) ->
    member_like prefix (start + 512 * Z.of_nat pos) m x.
  Proof.
    pose proof (file_row_like prefix start depth pos m) as L. unfold file_rows. destruct (char_eqb_spec (m_type m) "D"%char) as [D|D].
    - intros [<- |[<- |[]]]; [exact L|]. destruct L as (L1 & L2 & L3). split; [exact L1|]. split; [exact L2|]. left. split; [exact D|].
      cbn [r_offsetheader]. pose proof (file_row_fields transform prefix start depth pos m) as (_ & _ & F3 & _). lia.
    - intros [<- |[]]. exact L.
  Qed.

  Lemma region_body bs start l pos m body : lies_at archive bs start -> tarball bs l -> In (pos, m, body) l ->
    fits m body -> region archive (start + 512 * Z.of_nat (pos + 1 + m_extra m)) (m_size m) = firstn (Z.to_nat (m_size m / 512)) body.
  Proof.
    intros Hl Ht I F. destruct (lies_body archive bs start l pos m body Hl Ht I) as (pre & post & -> & ->). unfold region.
    replace (512 * Z.of_nat (length pre) / 512) with (Z.of_nat (length pre)) by (rewrite Z.mul_comm, Z.div_mul; lia).
    rewrite Nat2Z.id, skipn_app_exact. rewrite firstn_app. destruct F as [F1 F2].
    assert (m_size m / 512 <= Z.of_nat (length body)) by (apply Z.div_le_upper_bound; lia).
    replace (Z.to_nat (m_size m / 512) - length body)%nat with 0%nat by lia. cbn [firstn]. apply app_nil_r.
  Qed.

  Lemma no_archive_rows levels depth bs prefix start : no_archive bs -> forall n, inserted_rows (index_part levels depth (firstn n bs) prefix start) = [].
  Proof.
    intros N n. destruct levels as [|levels]; [reflexivity|]. cbn [Tar_Model.index_part].
    assert (E : members false (firstn n bs) = ([], true)).
    { destruct n as [|n]; [reflexivity|]. destruct N as [-> |(c & rest & ->)]; [reflexivity|]. cbn [firstn]. unfold members. cbn [scan nth_error]. reflexivity. }
    rewrite E. cbn [filter flat_map]. destruct (_ && _); reflexivity.
  Qed.

  Lemma moved_row prefix start depth pos m folder name : ~ In slash name ->
    let x := mounted_row (file_row transform prefix start depth pos m) folder name in
    r_offsetheader x = start + 512 * Z.of_nat pos + 1 /\ folder ++ slash :: name = written (location_of transform prefix m) \/
    r_offsetheader x = start + 512 * Z.of_nat pos /\ folder ++ slash :: name <> written (location_of transform prefix m).
  Proof.
    intros N. pose proof (file_row_fields transform prefix start depth pos m) as (F1 & F2 & F3 & _).
    change (written (denotes (full_name transform prefix m))) with (written (location_of transform prefix m)) in F1.
    set (r := file_row transform prefix start depth pos m) in *. unfold mounted_row. cbn [r_offsetheader]. rewrite <- F1. unfold full_path.
    destruct (str_eqb_spec folder (r_path r)) as [-> |Nf]; cbn [negb orb].
    - destruct (str_eqb_spec name (r_name r)) as [-> |Nn]; cbn [negb]; [left; split; [lia|reflexivity]|].
      right. split; [exact F3|]. intros E. apply app_inv_head in E. congruence.
    - right. split; [exact F3|]. intros E. apply Nf. symmetry in E. apply (full_path_split r folder name) in E as [E _]; [congruence|exact F2|exact N].
  Qed.

  Definition mount_row_of (levels : nat) (prefix : str) (start : Z) (bs : list block) (x : row) : Prop :=
    ~ In slash (r_name x) /\
    exists prefix' header m body, holds M (Nat.pred levels) prefix start bs prefix' header m body /\ named_tar m /\ M prefix' m (full_path x) /\
      (r_offsetheader x = header + 1 /\ full_path x = written (location_of transform prefix' m) \/
       r_offsetheader x = header /\ full_path x <> written (location_of transform prefix' m)).

  Lemma deep_rows levels : forall depth bs prefix start, sound levels bs -> lies_at archive bs start ->
    forall x, In x (inserted_rows (index_part levels depth bs prefix start)) ->
    (exists prefix' header m body, holds M levels prefix start bs prefix' header m body /\ member_like prefix' header m x) \/
    mount_row_of levels prefix start bs x.
  Proof.
    induction levels as [|levels IH]; intros depth bs prefix start S Hl x Hx; [destruct Hx|].
    inversion S as [|? ? l Ht Hn]; subst. cbn [Tar_Model.index_part] in Hx. rewrite (members_tarball bs l Ht) in Hx.
    unfold inserted_rows in Hx. cbn [flat_map] in Hx. apply in_app_iff in Hx as [Hx|Hx].
    - left. apply in_flat_map in Hx as ([pos m] & I & Hx). unfold heads in I. apply in_map_iff in I as ([[pos' m'] body] & E & I). injection E as <- <-.
      exists prefix, (start + 512 * Z.of_nat pos'), m', body. split; [now apply (holds_here M levels prefix start bs l)|].
      apply file_rows_like in Hx. exact Hx.
    - apply in_flat_map in Hx as (i & Hi & Hx). apply in_flat_map in Hi as ([pos m] & I & Hi). cbn [andb] in I.
      destruct (Nat.eqb_spec levels 0) as [->|Nl]; cbn [negb] in I; [destruct I|].
      apply filter_In in I as [I T]. apply named_tar_spec in T. unfold heads in I. apply in_map_iff in I as ([[pos' m'] body] & E & I). injection E as <- <-. cbn [plus] in *.
      pose proof (file_row_fields transform prefix start depth pos' m') as (F1 & F2 & F3 & F4 & F5 & F6).
      pose proof (mount_point_full transform strip remount prefix start depth pos' m') as Mf.
      pose proof (mount_point_name transform strip remount prefix start depth pos' m') as Mn.
      destruct (mounted_exists transform strip remount prefix m') as (at_ & Ha).
      pose proof (mount_point_spec transform strip remount prefix start depth pos' m' at_ (named_not_dir m' T) Ha) as Ms.
      pose proof (file_row_like prefix start depth pos' m') as Lk.
      set (r := file_row transform prefix start depth pos' m') in *.
      destruct (mount_point strip remount r) as [path [folder name]]. cbn [fst snd] in *. rewrite Ms in Mf, Hi. clear Ms path.
      destruct levels as [|levels]; [congruence|].
      apply in_app_iff in Hi as [Hi|[<- |[<- |[]]]].
      + specialize (Hn pos' m' body I T Nl).
        assert (F : fits m' body). { destruct Hn as [[Hn _]|[Hn _]]; [|exact Hn]. unfold fits. lia. }
        rewrite F4, F5, (region_body bs start l pos' m' body Hl Ht I F) in Hi.
        assert (Hx' : In x (inserted_rows (index_part (Datatypes.S levels) (depth + 1) (firstn (Z.to_nat (m_size m' / 512)) body) at_ (start + 512 * Z.of_nat (pos' + 1 + m_extra m'))))).
        { apply in_flat_map. exists i. split; [exact Hi|exact Hx]. }
        destruct Hn as [[Sz Sb]|[_ Na]]; [|rewrite (no_archive_rows _ _ _ _ _ Na) in Hx'; destruct Hx'].
        rewrite Sz in Hx'. replace (512 * Z.of_nat (length body) / 512) with (Z.of_nat (length body)) in Hx' by (rewrite Z.mul_comm, Z.div_mul; lia).
        rewrite Nat2Z.id, firstn_all in Hx'.
        apply IH in Hx'; [|exact Sb|apply (lies_body archive bs start l); assumption].
        destruct Hx' as [(p' & h' & m2 & b2 & H & K)|(Ns & p' & h' & m2 & b2 & H & K)].
        * left. exists p', h', m2, b2. split; [|exact K]. now apply (holds_nested M levels prefix start bs l pos' m' body at_).
        * right. split; [exact Ns|]. exists p', h', m2, b2. split; [|exact K]. cbn [Nat.pred] in *.
          destruct levels as [|levels]; [inversion H|]. now apply (holds_nested M levels prefix start bs l pos' m' body at_).
      + destruct Hx as [<- |[]]. right. unfold mount_row_of, mounted_row, full_path. cbn [r_path r_name]. split; [exact Mn|].
        exists prefix, (start + 512 * Z.of_nat pos'), m', body. rewrite Mf. split; [|split; [exact T|split; [exact Ha|]]].
        * cbn [Nat.pred]. now apply (holds_here M levels prefix start bs l).
        * pose proof (moved_row prefix start depth pos' m' folder name Mn) as Mv. fold r in Mv. rewrite Mf in Mv. exact Mv.
      + destruct Hx as [<- |[]]. left. exists prefix, (start + 512 * Z.of_nat pos'), m', body. split; [now apply (holds_here M (Datatypes.S levels) prefix start bs l)|].
        destruct Lk as (L1 & L2 & L3). split; [exact L1|]. split; [exact L2|exact L3].
  Qed.

  Variable levels : nat.
  Hypothesis H_sound : sound levels archive.
  Hypothesis H_clean : clean_mounts transform strip remount levels archive.
  Let is := index_part levels 0 archive [] 0.

  Lemma lies_self : lies_at archive archive 0.
  Proof. exists [], []. rewrite app_nil_r. split; reflexivity. Qed.

  Lemma deep_cases x : In x (inserted_rows is) ->
    (exists prefix header m body, member_of transform strip remount levels archive prefix header m body /\ member_like prefix header m x) \/
    ~ In slash (r_name x) /\ mount_at transform strip remount levels archive (full_path x).
  Proof.
    intros Hx. destruct (deep_rows levels 0 archive [] 0 H_sound lies_self x Hx) as [H|(N & p & h & m & b & H & T & Mt & _)]; [now left|].
    right. split; [exact N|]. exists p, h, m, b. auto.
  Qed.

  Lemma written_row r loc : ~ In slash (r_name r) -> Forall proper_name loc -> full_path r = written loc -> backend_row r.
  Proof.
    intros N P E. split; [exact N|]. destruct loc as [|n loc _] using rev_ind.
    - left. unfold full_path in E. change (written []) with ([] ++ slash :: []) in E. unfold root_row.
      destruct (r_path r) as [|c p]; [now injection E|]. cbn [app] in E. injection E as _ E. destruct p; discriminate.
    - right. apply Forall_app in P as [P1 P2]. exists loc, n. split; [exact P1|]. split; [now inversion P2|exact E].
  Qed.

  Lemma deep_backend x : In x (inserted_rows is) -> backend_row x.
  Proof.
    intros Hx. destruct (deep_cases x Hx) as [(p & h & m & b & _ & _ & B & _)|[N Mt]]; [exact B|].
    apply (written_row x (denotes (full_path x)) N); [apply denotes_proper|]. now apply H_clean.
  Qed.

  Lemma present_inserted loc : present transform strip remount levels archive loc -> exists r, In r (inserted_rows is) /\ full_path r = written loc.
  Proof.
    intros [(p & h & m & b & H & <-)|(at_ & Mt & <-)].
    - destruct (held_inserted _ _ _ archive _ _ _ _ _ _ _ _ H 0 lies_self) as (r & Hr & D & _). exists r. split; [exact Hr|exact D].
    - pose proof (H_clean at_ Mt) as Ca. destruct Mt as (p & h & m & b & H & T & Mt).
      assert (Lv : levels = S (Nat.pred levels)) by (destruct levels; [inversion H|reflexivity]).
      destruct (marked_inserted transform strip remount archive _ _ _ _ _ _ _ _ H T 0 lies_self) as (d & k & pos & pre & post & _ & _ & X). cbv zeta in X.
      rewrite <- Lv in X. fold is in X.
      pose proof (mount_point_spec transform strip remount p k d pos m at_ (named_not_dir m T) Mt) as Mp.
      pose proof (mount_point_full transform strip remount p k d pos m) as Mf.
      destruct (mount_point strip remount (file_row transform p k d pos m)) as [path [folder name]]. cbn [fst] in Mp. destruct X as (E & _).
      eexists. split; [rewrite E; apply in_or_app; right; now left|]. unfold full_path, mounted_row. cbn [r_path r_name]. congruence.
  Qed.

  Lemma inserted_present x : In x (inserted_rows is) -> exists loc, present transform strip remount levels archive loc /\ full_path x = written loc.
  Proof.
    intros Hx. destruct (deep_cases x Hx) as [(p & h & m & b & H & K & _)|[_ Mt]].
    - exists (location_of transform p m). split; [left; eauto 6|exact K].
    - exists (denotes (full_path x)). split; [right; eauto|now apply H_clean].
  Qed.

  Lemma present_proper loc : present transform strip remount levels archive loc -> Forall proper_name loc.
  Proof. intros [(p & h & m & b & H & <-)|(at_ & Mt & <-)]; apply denotes_proper. Qed.

  Lemma deep_lookup now uid gid sh p prefix header m body : any_order sh -> starts_with $"../" p = false -> denotes p <> [] ->
    member_of transform strip remount levels archive prefix header m body -> location_of transform prefix m = denotes p ->
    last_there transform strip remount levels archive (denotes p) header -> m_type m <> "D"%char ->
    exists r, lookup now uid gid sh (build is) p 0 = Some (row_to_file_info r) /\
      r_offset r = header + 512 * Z.of_nat (1 + m_extra m) /\ r_size r = m_size m /\ r_mtime r = m_mtime m /\
      r_mode r = full_mode m /\ r_linkname r = m_link m /\ r_uid r = m_uid m /\ r_gid r = m_gid m /\ r_issparse r = m_sparse m.
  Proof.
    intros Hsh Hp Hroot Hm Hloc (Hl1 & Hl2 & Hl3) Hd.
    destruct (held_row transform strip remount archive levels prefix header m body Hm) as (r & Hr & D & _). fold is in Hr.
    destruct D as (D1 & D2 & D3 & _).
    assert (F : full_path r = written (denotes p)). { rewrite D1, <- Hloc. reflexivity. }
    pose proof (built_rows is deep_backend) as (_ & B2 & B3 & B4).
    destruct (held_at _ _ _ archive _ _ _ _ _ _ _ _ Hm lies_self) as (h & Eh & Hh).
    assert (Hin : forall x, In x (build is) -> full_path x = written (denotes p) ->
      exists prefix' header' m' body', member_of transform strip remount levels archive prefix' header' m' body' /\
        location_of transform prefix' m' = denotes p /\ member_like prefix' header' m' x).
    { intros x Hx Fx. destruct (B2 x Hx) as [(a & b & E' & _)|(below & pre & n & Ib & G & _)].
      - assert (Ix : In x (inserted_rows is)) by (rewrite E'; apply in_or_app; right; now left).
        destruct (deep_cases x Ix) as [(p' & h' & m' & b' & H' & K)|[_ Mt]].
        + exists p', h', m', b'. split; [exact H'|]. split; [|exact K]. destruct K as (K & _). rewrite Fx in K.
          apply written_inj in K; [now rewrite K|apply denotes_proper|apply denotes_proper].
        + exfalso. apply (Hl3 _ [] Mt). rewrite Fx, app_nil_r. apply denotes_written, denotes_proper.
      - exfalso. destruct G as (G1 & _ & _ & _ & _ & _ & _ & _ & _ & _ & _ & rest & name & (M1 & M2 & M3)).
        rewrite Fx in G1. pose proof M1 as M1'. apply Forall_app in M1' as [P1 P2]. inversion P2 as [|? ? P3 P4]; subst.
        apply written_inj in G1; [|apply denotes_proper|apply Forall_app; split; [exact P1|constructor; [exact P3|constructor]]].
        assert (Fb : full_path below = written (denotes p ++ (rest ++ [name]))).
        { rewrite M3, G1. f_equal. rewrite <- !app_assoc. reflexivity. }
        assert (Pb : Forall proper_name (denotes p ++ rest ++ [name])).
        { apply Forall_app. split; [apply denotes_proper|]. apply Forall_app. split; [exact P4|constructor; [exact M2|constructor]]. }
        destruct (deep_cases below Ib) as [(p' & h' & m' & b' & H' & K & _)|[_ Mt]].
        + rewrite Fb in K. apply written_inj in K; [|exact Pb|apply denotes_proper].
          apply (Hl2 p' h' m' b' (rest ++ [name]) H'); [destruct rest; discriminate|now rewrite K].
        + apply (Hl3 _ (rest ++ [name]) Mt). rewrite Fb. apply denotes_written, Pb. }
    assert (Hsame : forall m', nth_error archive h = Some (Head m') -> m' = m) by (intros; congruence).
    exists r. split.
    - apply lookup_greatest; auto. intros x Hx Fx. rewrite F in Fx. destruct (Hin x Hx Fx) as (p' & h' & m' & b' & H' & L' & _ & _ & K).
      specialize (Hl1 p' h' m' b' H' L'). rewrite D3. destruct K as [[T K]|[K _]]; [|lia].
      destruct (Z.eq_dec h' header) as [-> |N]; [|lia].
      destruct (held_at _ _ _ archive _ _ _ _ _ _ _ _ H' lies_self) as (h2 & Eh2 & Hh2). assert (h2 = h) by lia. subst h2.
      rewrite (Hsame m' Hh2) in T. contradiction.
    - destruct (Hin r Hr F) as (p' & h' & m' & b' & H' & L' & _ & _ & K).
      destruct (held_at _ _ _ archive _ _ _ _ _ _ _ _ H' lies_self) as (h2 & Eh2 & Hh2).
      destruct K as [[T K]|[K1 K2]]; [lia|]. assert (h2 = h) by lia. subst h2. assert (m' = m) by congruence. subst m'.
      rewrite <- D3, K1. exact K2.
  Qed.
  (** The folder of a nested archive. *)
  Lemma deep_mount now uid gid sh p prefix header m body at_ : any_order sh -> starts_with $"../" p = false -> denotes p <> [] -> denotes p = denotes at_ ->
    holds M (Nat.pred levels) [] 0 archive prefix header m body -> named_tar m -> M prefix m at_ ->
    is_dir_mode (folder_mode (full_mode m)) = true -> last_mount transform strip remount levels archive at_ prefix header ->
    exists r, lookup now uid gid sh (build is) p 0 = Some (row_to_file_info r) /\
      r_size r = m_size m /\ r_mtime r = m_mtime m /\ r_mode r = folder_mode (full_mode m) /\ r_linkname r = m_link m /\ r_uid r = m_uid m /\ r_gid r = m_gid m.
  Proof.
    intros Hsh Hp Hroot Ep Hm Hn Ha Hdir (Hl1 & Hl2).
    assert (Lv : levels = S (Nat.pred levels)) by (destruct levels; [inversion Hm|reflexivity]).
    assert (Ca : at_ = written (denotes at_)). { apply H_clean. exists prefix, header, m, body. auto. }
    destruct (marked_inserted transform strip remount archive _ _ _ _ _ _ _ _ Hm Hn 0 lies_self) as (d & k & pos & pre & post & Lk & Eh & X). cbv zeta in X.
    rewrite <- Lv in X. fold is in X.
    pose proof (mount_point_spec transform strip remount prefix k d pos m at_ (named_not_dir m Hn) Ha) as Mp.
    pose proof (mount_point_full transform strip remount prefix k d pos m) as Mf.
    pose proof (mount_point_name transform strip remount prefix k d pos m) as Mn.
    pose proof (moved_row prefix k d pos m) as Mv. rewrite <- Eh in Mv.
    destruct (mount_point strip remount (file_row transform prefix k d pos m)) as [path [folder name]]. cbn [fst snd] in *.
    rewrite Mp in Mf. clear Mp path. destruct X as (E & _ & P). specialize (Mv folder name Mn). cbv zeta in Mv. rewrite Mf in Mv.
    pose proof (file_row_fields transform prefix k d pos m) as (F1 & F2 & F3 & F4 & F5 & F6 & F7 & F8 & F9 & F10 & _).
    set (r := file_row transform prefix k d pos m) in *. set (x0 := mounted_row r folder name) in *.
    assert (Fx : full_path x0 = at_) by exact Mf.
    pose proof (built_rows is deep_backend) as (B1 & B2 & B3 & B4).
    assert (La : last_inserted x0 (inserted_rows is)).
    { exists pre, (with_istar r :: post). split; [exact E|]. intros y [<- |Hy] [Y1 Y2].
      - change (full_path (with_istar r)) with (full_path r) in Y1. change (r_offsetheader (with_istar r)) with (r_offsetheader r) in Y2.
        rewrite F1, Fx in Y1. destruct Mv as [[Mv _]|[_ Mv]]; [lia|]. apply Mv. symmetry. exact Y1.
      - destruct (P y Hy) as [P1 P2]. destruct Mv as [[Mv _]|[Mv _]]; lia. }
    assert (Dx : is_dir_mode (r_mode x0) = true) by (change (r_mode x0) with (folder_mode (r_mode r)); now rewrite F7).
    destruct (held_at _ _ _ archive _ _ _ _ _ _ _ _ Hm lies_self) as (h & Eh' & Hh).
    exists x0. split; [|change (r_mode x0) with (folder_mode (r_mode r)); rewrite F7; repeat (split; [assumption || reflexivity|]); assumption].
    apply lookup_greatest; auto; [rewrite Fx, Ca, Ep; reflexivity|].
    intros y Hy Fy. rewrite Fx in Fy. destruct (B2 y Hy) as [(a & b & E' & _)|(below & pr & n & Ib & G & D)].
    - assert (Iy : In y (inserted_rows is)) by (rewrite E'; apply in_or_app; right; now left).
      destruct (deep_rows levels 0 archive [] 0 H_sound lies_self y Iy) as [(p' & h' & m' & b' & H' & K1 & _ & K)|(N & p' & h' & m' & b' & H' & T & Mt & K)].
      + assert (L' : location_of transform p' m' = denotes at_).
        { rewrite Fy, Ca in K1. apply written_inj in K1; [now rewrite K1|apply denotes_proper|apply denotes_proper]. }
        specialize (Hl1 p' h' m' b' H' L'). assert (K' : r_offsetheader y <= h' + 1) by lia.
        destruct (held_at _ _ _ archive _ _ _ _ _ _ _ _ H' lies_self) as (h2 & Eh2 & Hh2).
        destruct Hl1 as [Hl1|[-> ->]]; [lia|]. assert (h2 = h) by lia. subst h2. assert (m' = m) by congruence. subst m'.
        destruct K as [[K _]|[K _]]; [|lia]. exfalso. destruct Hn as [Hn _]. rewrite K in Hn. cbn in Hn. intuition discriminate.
      + rewrite Fy in Mt, K. specialize (Hl2 p' h' m' b' H' T Mt).
        destruct (held_at _ _ _ archive _ _ _ _ _ _ _ _ H' lies_self) as (h2 & Eh2 & Hh2).
        destruct Hl2 as [Hl2|[-> ->]]; [lia|]. assert (h2 = h) by lia. subst h2. assert (m' = m) by congruence. subst m'.
        destruct K as [[K K']|[K K']], Mv as [[Mv Mv']|[Mv Mv']]; try lia; contradiction.
    - exfalso. rewrite (D x0 La) in Dx; [discriminate|]. rewrite Fx. now symmetry.
  Qed.

  (** What the kernel gets. *)
  Lemma deep_served now uid gid sh p prefix header m body : any_order sh -> denotes (slash :: p) <> [] ->
    member_of transform strip remount levels archive prefix header m body -> location_of transform prefix m = denotes (slash :: p) ->
    last_there transform strip remount levels archive (denotes (slash :: p)) header -> regular_file m body ->
    exists r, served_lookup now uid gid (build is) sh (slash :: p) = Ok (VersionOf (row_to_file_info r)) /\
      r_offset r = header + 512 * Z.of_nat (1 + m_extra m) /\ r_size r = m_size m /\ r_mtime r = m_mtime m /\
      r_mode r = Z.lor (m_mode m) 32768 /\ r_uid r = m_uid m /\ r_gid r = m_gid m /\ r_issparse r = m_sparse m.
  Proof.
    intros Hsh N Hm Hloc Hl Rf.
    destruct (deep_lookup now uid gid sh (slash :: p) prefix header m body Hsh eq_refl N Hm Hloc Hl) as (r & L & R1 & R2 & R3 & R4 & R5 & R6 & R7 & R8).
    { destruct Rf as ([<- |[<- |[<- |[]]]] & _); discriminate. }
    rewrite (full_mode_file m body Rf) in R4. exists r. split; [|repeat (split; [assumption|]); assumption].
    set (i := row_to_file_info r) in *.
    assert (H : is_hard_link i = false).
    { unfold is_hard_link, i. cbn [row_to_file_info fi_mode]. rewrite R4. unfold is_reg_mode. rewrite Z.land_lor_distr_l. destruct Rf as (_ & _ & _ & Mo).
      change S_IFMT with 61440. rewrite Mo. reflexivity. }
    assert (R : forall limit, resolve_loop (tar_source now uid gid (build is) sh) (fun _ => $"/") limit (slash :: p) 0 i = Some i).
    { intros [|limit]; [reflexivity|]. cbn [resolve_loop]. now rewrite H. }
    assert (L' : s_lookup (tar_source now uid gid (build is) sh) (slash :: p) 0 = Some i) by exact L.
    unfold served_lookup, v_lookup, resolve_hard_links. rewrite L', R. reflexivity.
  Qed.
  Lemma deep_mount_served now uid gid sh p prefix header m body at_ : any_order sh -> denotes (slash :: p) <> [] -> denotes (slash :: p) = denotes at_ ->
    holds M (Nat.pred levels) [] 0 archive prefix header m body -> named_tar m -> M prefix m at_ -> m_link m = [] ->
    is_dir_mode (folder_mode (full_mode m)) = true -> last_mount transform strip remount levels archive at_ prefix header ->
    exists r, served_lookup now uid gid (build is) sh (slash :: p) = Ok (VersionOf (row_to_file_info r)) /\
      r_size r = m_size m /\ r_mtime r = m_mtime m /\ r_mode r = folder_mode (full_mode m) /\ r_uid r = m_uid m /\ r_gid r = m_gid m.
  Proof.
    intros Hsh N Ep Hm Hn Ha Hk Hdir Hl.
    destruct (deep_mount now uid gid sh (slash :: p) prefix header m body at_ Hsh eq_refl N Ep Hm Hn Ha Hdir Hl) as (r & L & R1 & R2 & R3 & R4 & R5 & R6).
    exists r. split; [|repeat (split; [assumption|]); assumption].
    set (i := row_to_file_info r) in *.
    assert (H : is_hard_link i = false).
    { unfold is_hard_link, i. cbn [row_to_file_info fi_linkname]. rewrite R4, Hk. destruct (str_eqb_spec [] []); [|congruence]. apply andb_false_r. }
    assert (R : forall limit, resolve_loop (tar_source now uid gid (build is) sh) (fun _ => $"/") limit (slash :: p) 0 i = Some i).
    { intros [|limit]; [reflexivity|]. cbn [resolve_loop]. now rewrite H. }
    assert (L' : s_lookup (tar_source now uid gid (build is) sh) (slash :: p) 0 = Some i) by exact L.
    unfold served_lookup, v_lookup, resolve_hard_links. rewrite L', R. reflexivity.
  Qed.
End Deep.

(** What can be read after an open that finds a row of data in the archive. *)
Lemma row_reads {A} (render : block -> list A) archive rows now uid gid sh r m body path :
  (forall b, length (render b) = 512%nat) -> lies_at archive body (r_offset r) -> fits m body -> r_size r = m_size m -> r_issparse r = false ->
  served_lookup now uid gid rows sh path = Ok (VersionOf (row_to_file_info r)) ->
  let serve := serve now uid gid rows (bytes_of render archive) in
  let serve_all := serve_all now uid gid rows (bytes_of render archive) in
  forall st0, exists fh st, serve st0 (sh, KOpen path) = (RHandle fh, st) /\
  forall between, (forall sh', ~ In (sh', KRelease fh) between) ->
  forall sh' path' size offset, 0 <= offset -> 0 <= size ->
    fst (serve (serve_all st between) (sh', KRead path' size offset fh)) = RData (bytes_at (content_of render m body) offset size).
Proof.
  intros Hr Hl Fi F5 F11 L serve serve_all st0.
  assert (O : open_member (row_to_file_info r) = Some (open_plain (r_offset r) (m_size m))).
  { unfold open_member. cbn [row_to_file_info fi_userdata u_issparse u_offset fi_size]. now rewrite F11, F5. }
  destruct (lies_content render Hr archive body (r_offset r) m Hl Fi) as [Ec Hi].
  set (files := the_file (bytes_of render archive)).
  assert (Ej : joined files (open_plain (r_offset r) (m_size m)) = content_of render m body).
  { unfold joined, open_plain. cbn [map concat]. rewrite app_nil_r. exact Ec. }
  assert (Hin : Forall (inside files) (open_plain (r_offset r) (m_size m))) by (constructor; [exact Hi|constructor]).
  destruct (C01_stenciled_read_at A files _ 0 0 (fun _ => 0) Hin ltac:(lia) ltac:(lia)) as (s & _ & _ & _ & E0 & _).
  set (fh := k_last st0 + 1).
  exists fh, (mkK fh (dset Z.eqb (k_open st0) fh (Some s)) (k_pos st0)). split.
  { unfold serve, Served_Model.serve. cbn [fst snd]. rewrite L, O, E0. reflexivity. }
  intros between Hb sh' path' size offset Ho Hs.
  assert (Hf : holds_file fh s (mkK fh (dset Z.eqb (k_open st0) fh (Some s)) (k_pos st0))).
  { split; [cbn; lia|]. cbn [k_open]. rewrite (dget_dset_same Z.eqb Z.eqb_spec). exists (sf_offset s). now destruct s. }
  apply (serve_all_holds now uid gid rows (bytes_of render archive) fh s between _ ) in Hf; [|exact Hb].
  fold serve_all in Hf. set (st1 := serve_all _ between) in *. destruct Hf as [_ (o & D)].
  unfold serve, Served_Model.serve. cbn [fst snd]. rewrite D.
  destruct (C01_stenciled_read_at A files _ offset size (k_pos st1) Hin Ho ltac:(lia)) as (s' & s1 & s2 & pos' & E1 & Sk & Rd & _).
  assert (s' = s) by congruence. subst s'.
  change (sf_seek (set_offset s o) offset SEEK_SET) with (sf_seek s offset SEEK_SET). rewrite Sk. fold files. rewrite Rd. cbn [fst].
  rewrite Ej. destruct (Z.eqb_spec size (-1)); [lia|reflexivity].
Qed.
