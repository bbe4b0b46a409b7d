(** Lemmas about the requests to a mounted TAR archive. *)
From Coq Require Import Ascii String Permutation.
From Verif Require Import PyBase PyDict PyStr Path_Model Path_Spec Path_Proofs FileInfo Union_Model Index_Model Index_Spec Index_Proofs Build_Proofs
  SeqIndex_Proofs Version_Model MemFile_Spec Stencil_Spec Stencil_Model Stencil_Props Sparse_Model Tar_Model Tar_Spec Tar_Proofs TarRead_Model TarRead_Spec TarRead_Proofs
  Front_Spec Front_Model Served_Spec Served_Model.
Local Open Scope Z_scope.

Section Offsets.
  Context {A : Type}.
  Variable fc : nat -> list A.

  Lemma read1_offset s pos size r s' pos' : sf_read1 fc s pos size = (r, s', pos') -> exists o, s' = set_offset s o.
  Proof.
    assert (I : exists o, s = set_offset s o) by (exists (sf_offset s); now destruct s).
    unfold sf_read1. destruct (size <? 0); [intros [= <- <- <-]; exact I|].
    destruct (find_stencil s (sf_offset s)) as [i|e]; [|intros [= <- <- <-]; exact I].
    destruct (Nat.leb _ i); [intros [= <- <- <-]; exact I|]. cbv zeta.
    destruct (_ <? 0); [intros [= <- <- <-]; exact I|]. destruct (_ <=? _); [intros [= <- <- <-]; exact I|].
    intros [= <- <- <-]. eauto.
  Qed.

  Lemma read_loop_offset fuel : forall s pos size acc r s' pos',
    sf_read_loop fc fuel s pos size acc = (r, s', pos') -> exists o, s' = set_offset s o.
  Proof.
    induction fuel as [|fuel IH]; intros s pos size acc r s' pos'; cbn [sf_read_loop];
      assert (I : exists o, s = set_offset s o) by (exists (sf_offset s); now destruct s).
    - intros [= <- <- <-]. exact I.
    - destruct (len acc <? size); [|intros [= <- <- <-]; exact I].
      destruct (sf_read1 fc s pos (size - len acc)) as [[[[|x d]|e] s1] p1] eqn:R; apply read1_offset in R as (o & ->).
      + intros [= <- <- <-]. eauto.
      + intros H. apply IH in H as (o' & ->). now exists o'.
      + intros [= <- <- <-]. eauto.
  Qed.

  Lemma read_offset s pos size r s' pos' : sf_read fc s pos size = (r, s', pos') -> exists o, s' = set_offset s o.
  Proof.
    unfold sf_read. destruct (size =? 0); [intros [= <- <- <-]; exists (sf_offset s); now destruct s|]. apply read_loop_offset.
  Qed.
End Offsets.

Section Handles.
  Context {A : Type}.
  Variables now uid gid : Z.
  Variable rows : list row.
  Variable bytes : list A.
  Let serve := serve now uid gid rows bytes.
  Let serve_all := serve_all now uid gid rows bytes.

  Lemma serve_all_app h1 : forall h2 st, serve_all st (h1 ++ h2) = serve_all (serve_all st h1) h2.
  Proof. unfold serve_all. induction h1 as [|r h1 IH]; intros h2 st; cbn [app Served_Model.serve_all]; [reflexivity|apply IH]. Qed.

  (** The state after one request. *)
  Lemma serve_state st sh q : k_last st <= k_last (snd (serve st (sh, q))).
  Proof.
    unfold serve, Served_Model.serve. cbn [fst snd]. destruct q as [path|path|path size offset fh|fh].
    - destruct (served_lookup _ _ _ _ _ _); cbn [snd]; lia.
    - destruct (served_lookup _ _ _ _ _ _) as [[i|? ? ?]|]; cbn [snd]; try lia. destruct (open_member i); cbn [snd]; [|lia].
      destruct (sf_init l); cbn [snd k_last]; lia.
    - destruct (dget _ _ _) as [[s|]|]; cbn [snd]; try lia. destruct (sf_seek s offset SEEK_SET) as [[?|?] s1]; cbn [snd k_last]; [|lia].
      destruct (sf_read _ s1 _ size) as [[d s2] pos]; cbn [snd k_last]; lia.
    - destruct (dget _ _ _); cbn [snd k_last]; lia.
  Qed.

  Lemma serve_all_last h : forall st, k_last st <= k_last (serve_all st h).
  Proof.
    unfold serve_all. induction h as [|[sh q] h IH]; intros st; cbn [Served_Model.serve_all]; [lia|].
    pose proof (serve_state st sh q) as S. fold serve. specialize (IH (snd (serve st (sh, q)))). lia.
  Qed.

  Definition holds_file (fh : Z) (s0 : sfile) (st : kstate) : Prop :=
    fh <= k_last st /\ exists o, dget Z.eqb (k_open st) fh = Some (Some (set_offset s0 o)).
  Definition closed_file (fh : Z) (st : kstate) : Prop := fh <= k_last st /\ dget Z.eqb (k_open st) fh = Some None.
  Definition all_given (st : kstate) : Prop := forall fh e, dget Z.eqb (k_open st) fh = Some e -> fh <= k_last st.

  Lemma set_offset_set s a b : set_offset (set_offset s a) b = set_offset s b.
  Proof. reflexivity. Qed.

  Lemma serve_holds fh s0 st sh q : holds_file fh s0 st -> q <> KRelease fh -> holds_file fh s0 (snd (serve st (sh, q))).
  Proof.
    intros [L (o & D)] N. pose proof (serve_state st sh q) as Hl. split; [lia|]. clear Hl.
    unfold serve, Served_Model.serve. cbn [fst snd]. destruct q as [path|path|path size offset fh'|fh'].
    - destruct (served_lookup _ _ _ _ _ _); cbn [snd]; eauto.
    - destruct (served_lookup _ _ _ _ _ _) as [[i|? ? ?]|]; cbn [snd]; eauto. destruct (open_member i); cbn [snd]; eauto.
      destruct (sf_init l); cbn [snd k_open]; eauto. exists o. rewrite (dget_dset_other Z.eqb Z.eqb_spec) by lia. exact D.
    - destruct (dget Z.eqb (k_open st) fh') as [[s|]|] eqn:D'; cbn [snd]; eauto.
      unfold sf_seek. destruct (offset <? 0) eqn:O; cbn [snd k_open].
      + destruct (Z.eq_dec fh fh') as [<-|Nf].
        * rewrite D' in D. injection D as ->. rewrite (dget_dset_same Z.eqb Z.eqb_spec). rewrite ?set_offset_set. eexists. reflexivity.
        * rewrite (dget_dset_other Z.eqb Z.eqb_spec) by congruence. eauto.
      + destruct (sf_read _ (set_offset s offset) _ size) as [[d s2] pos] eqn:R. cbn [snd k_open]. apply read_offset in R as (o' & ->).
        destruct (Z.eq_dec fh fh') as [<-|Nf].
        * rewrite D' in D. injection D as ->. rewrite (dget_dset_same Z.eqb Z.eqb_spec). rewrite ?set_offset_set. eexists. reflexivity.
        * rewrite (dget_dset_other Z.eqb Z.eqb_spec) by congruence. eauto.
    - destruct (dget Z.eqb (k_open st) fh') eqn:D'; cbn [snd k_open]; eauto. rewrite (dget_dset_other Z.eqb Z.eqb_spec) by congruence. eauto.
  Qed.

  Lemma serve_all_holds fh s0 h : forall st, holds_file fh s0 st -> (forall sh, ~ In (sh, KRelease fh) h) -> holds_file fh s0 (serve_all st h).
  Proof.
    unfold serve_all. induction h as [|[sh q] h IH]; intros st Hs N; cbn [Served_Model.serve_all]; [exact Hs|]. apply IH.
    - apply serve_holds; [exact Hs|]. intros ->. apply (N sh). now left.
    - intros sh' I. apply (N sh'). now right.
  Qed.

  Lemma serve_closed fh st sh q : closed_file fh st -> closed_file fh (snd (serve st (sh, q))).
  Proof.
    intros [L D]. pose proof (serve_state st sh q) as Hl. split; [lia|]. clear Hl.
    unfold serve, Served_Model.serve. cbn [fst snd]. destruct q as [path|path|path size offset fh'|fh'].
    - destruct (served_lookup _ _ _ _ _ _); cbn [snd]; eauto.
    - destruct (served_lookup _ _ _ _ _ _) as [[i|? ? ?]|]; cbn [snd]; eauto. destruct (open_member i); cbn [snd]; eauto.
      destruct (sf_init l); cbn [snd k_open]; eauto. rewrite (dget_dset_other Z.eqb Z.eqb_spec) by lia. exact D.
    - destruct (dget Z.eqb (k_open st) fh') as [[s|]|] eqn:D'; cbn [snd]; eauto.
      assert (Nf : fh <> fh') by (intros <-; congruence).
      destruct (sf_seek s offset SEEK_SET) as [[?|?] s1]; cbn [snd k_open].
      + destruct (sf_read _ s1 _ size) as [[d s2] pos]. cbn [snd k_open]. rewrite (dget_dset_other Z.eqb Z.eqb_spec) by congruence. eauto.
      + rewrite (dget_dset_other Z.eqb Z.eqb_spec) by congruence. eauto.
    - destruct (dget Z.eqb (k_open st) fh') eqn:D'; cbn [snd k_open]; eauto.
      destruct (Z.eq_dec fh fh') as [<-|Nf]; [now rewrite (dget_dset_same Z.eqb Z.eqb_spec)|].
      rewrite (dget_dset_other Z.eqb Z.eqb_spec) by congruence. eauto.
  Qed.

  Lemma serve_all_closed fh h : forall st, closed_file fh st -> closed_file fh (serve_all st h).
  Proof.
    unfold serve_all. induction h as [|[sh q] h IH]; intros st Hs; cbn [Served_Model.serve_all]; [exact Hs|]. apply IH. now apply serve_closed.
  Qed.

  Lemma dget_dset_le (d : list (Z * option sfile)) k v fh e : dget Z.eqb (dset Z.eqb d k v) fh = Some e -> fh = k \/ dget Z.eqb d fh = Some e.
  Proof.
    destruct (Z.eq_dec fh k) as [->|N]; [now left|]. rewrite (dget_dset_other Z.eqb Z.eqb_spec) by congruence. now right.
  Qed.

  Lemma serve_given st sh q : all_given st -> all_given (snd (serve st (sh, q))).
  Proof.
    intros G fh e. unfold serve, Served_Model.serve. cbn [fst snd]. destruct q as [path|path|path size offset fh'|fh'].
    - destruct (served_lookup _ _ _ _ _ _); cbn [snd]; apply G.
    - destruct (served_lookup _ _ _ _ _ _) as [[i|? ? ?]|]; cbn [snd]; try apply G. destruct (open_member i); cbn [snd]; try apply G.
      destruct (sf_init l); cbn [snd k_open k_last]; try apply G. intros D. apply dget_dset_le in D as [->|D]; [lia|]. apply G in D. lia.
    - destruct (dget Z.eqb (k_open st) fh') as [[s|]|] eqn:D'; cbn [snd]; try apply G. apply G in D'.
      destruct (sf_seek s offset SEEK_SET) as [[?|?] s1]; cbn [snd k_open k_last].
      + destruct (sf_read _ s1 _ size) as [[d s2] pos]. cbn [snd k_open k_last]. intros D. apply dget_dset_le in D as [->|D]; [lia|]. now apply G in D.
      + intros D. apply dget_dset_le in D as [->|D]; [lia|]. now apply G in D.
    - destruct (dget Z.eqb (k_open st) fh') eqn:D'; cbn [snd k_open k_last]; try apply G. apply G in D'.
      intros D. apply dget_dset_le in D as [->|D]; [lia|]. now apply G in D.
  Qed.

  Lemma serve_all_given h : forall st, all_given st -> all_given (serve_all st h).
  Proof. unfold serve_all. induction h as [|[sh q] h IH]; intros st G; cbn [Served_Model.serve_all]; [exact G|]. apply IH. now apply serve_given. Qed.

  Lemma mounted_given : all_given mounted.
  Proof. intros fh e D. discriminate D. Qed.
End Handles.

Lemma folder_child a n : folder_of a ++ slash :: n = written (a ++ [n]).
Proof.
  destruct a as [|x a]; [reflexivity|]. unfold folder_of, written. cbn [app]. f_equal. revert x. induction a as [|y a IH]; intros x; [reflexivity|].
  change (join $"/" (x :: y :: a)) with (x ++ $"/" ++ join $"/" (y :: a)). change (join $"/" (x :: (y :: a) ++ [n])) with (x ++ $"/" ++ join $"/" (y :: a ++ [n])).
  rewrite <- IH. now rewrite <- !app_assoc.
Qed.

Section Lookup.
  Variable transform : str -> str.
  Variable strip : bool.
  Variable remount : option (str -> str).
  Variable archive : list block.
  Variable l : list (nat * member * list block).
  Hypothesis Ht : tarball archive l.
  Let is := index_part transform strip remount false archive 1 0 archive [] 0.
  Variables now uid gid : Z.
  Variable sh : list row -> list row.
  Hypothesis Hsh : any_order sh.

  Lemma denotes_lstrip s : denotes (lstrip slash s) = denotes s.
  Proof.
    induction s as [|c s IH]; [reflexivity|]. destruct (char_eqb_spec c slash) as [->|N].
    - rewrite lstrip_sep, denotes_cons_slash. exact IH.
    - now rewrite lstrip_id.
  Qed.

  Lemma target_denotes (i : finfo tar_data) : exists t, link_target (fun _ => $"/") i = slash :: t /\ denotes (slash :: t) = denotes (slash :: fi_linkname i).
  Proof.
    unfold link_target. rewrite lstrip_sep, lstrip_idem. exists (lstrip slash (fi_linkname i)).
    split; [|now rewrite !denotes_cons_slash, denotes_lstrip].
    unfold path_join. destruct (starts_with $"/" (lstrip slash (fi_linkname i))) eqn:S; [|reflexivity].
    apply starts_with_spec in S as (t & S). apply lstrip_head in S. now destruct S.
  Qed.

  Lemma full_mode_file m body : regular_file m body -> full_mode m = Z.lor (m_mode m) 32768.
  Proof.
    intros (T & _). unfold full_mode, isdir, isfile, issym, ischr, isfifo. destruct T as [<- |[<- |[<- |[]]]]; cbn; now rewrite !Z.lor_0_r.
  Qed.

  Lemma resolved n loc m body : shows transform l n loc m body -> forall limit p, (n <= limit)%nat -> denotes (slash :: p) = loc -> loc <> [] ->
    exists i0 pos, In (pos, m, body) l /\ regular_file m body /\
      s_lookup (tar_source now uid gid (build is) sh) (slash :: p) 0 = Some i0 /\
      resolve_loop (tar_source now uid gid (build is) sh) (fun _ => $"/") limit (slash :: p) 0 i0 = Some (row_to_file_info (file_row transform [] 0 0 pos m)).
  Proof.
    induction 1 as [loc pos m body La Nb Rf|n loc pos h hb m body La Nb Hh Nl Nr Sh IH]; intros limit p Hn Dp Nloc.
    - exists (row_to_file_info (file_row transform [] 0 0 pos m)), pos. split; [destruct La as (b & a & -> & _); apply in_or_app; right; now left|].
      split; [exact Rf|]. split.
      + cbn [s_lookup tar_source]. apply (flat_lookup transform strip remount archive l Ht now uid gid sh (slash :: p) pos m body); auto; rewrite ?Dp; auto.
        destruct Rf as ([<- |[<- |[<- |[]]]] & _); discriminate.
      + destruct limit as [|limit]; [reflexivity|]. cbn [resolve_loop]. replace (is_hard_link _) with false; [reflexivity|]. symmetry.
        unfold is_hard_link. cbn [row_to_file_info fi_mode]. pose proof (file_row_fields transform [] 0 0 pos m) as (_ & _ & _ & _ & _ & _ & -> & _).
        rewrite (full_mode_file m body Rf). unfold is_reg_mode. rewrite Z.land_lor_distr_l. destruct Rf as (_ & _ & _ & M).
        change S_IFMT with 61440. rewrite M. reflexivity.
    - destruct limit as [|limit]; [lia|]. set (i0 := row_to_file_info (file_row transform [] 0 0 pos h)).
      pose proof (file_row_fields transform [] 0 0 pos h) as (_ & _ & _ & _ & _ & _ & F7 & F8 & _).
      destruct (target_denotes i0) as (t & T & Dt). assert (Lk : fi_linkname i0 = m_link h) by exact F8. rewrite Lk in Dt.
      destruct (IH limit t ltac:(lia) Dt Nr) as (i1 & pos' & In' & Rf & L1 & R1). exists i0, pos'. split; [exact In'|]. split; [exact Rf|]. split.
      + cbn [s_lookup tar_source]. apply (flat_lookup transform strip remount archive l Ht now uid gid sh (slash :: p) pos h hb); auto; rewrite ?Dp; auto.
        destruct Hh as (-> & _). discriminate.
      + cbn [resolve_loop]. replace (is_hard_link i0) with true.
        * cbv zeta. rewrite T. destruct (str_eqb_spec (slash :: t) (slash :: p)) as [E|_]; [rewrite E in Dt; congruence|].
          rewrite L1. exact R1.
        * symmetry. destruct Hh as (Ty & M & K). unfold is_hard_link. rewrite Lk. change (fi_mode i0) with (r_mode (file_row transform [] 0 0 pos h)).
          rewrite F7. unfold full_mode, isdir, isfile, issym, ischr, isfifo. rewrite Ty. cbn. rewrite !Z.lor_0_r.
          unfold is_reg_mode, is_lnk_mode. change S_IFMT with 61440. rewrite M. cbn. destruct (str_eqb_spec (m_link h) []); [contradiction|reflexivity].
  Qed.

  Lemma served_shown n m body p : shows transform l n (denotes (slash :: p)) m body -> (n <= 128)%nat -> denotes (slash :: p) <> [] ->
    exists pos, In (pos, m, body) l /\ regular_file m body /\
      served_lookup now uid gid (build is) sh (slash :: p) = Ok (VersionOf (row_to_file_info (file_row transform [] 0 0 pos m))).
  Proof.
    intros S Hn N. destruct (resolved _ _ _ _ S 128%nat p Hn eq_refl N) as (i0 & pos & I & Rf & L & R). exists pos. split; [exact I|]. split; [exact Rf|].
    unfold served_lookup, v_lookup, resolve_hard_links. rewrite L, R. reflexivity.
  Qed.

  Lemma flat_lookup_none loc v : Forall proper_name loc -> loc <> [] ->
    (forall pos m body rest, In (pos, m, body) l -> location_of transform [] m <> loc ++ rest) -> lookup now uid gid sh (build is) (written loc) v = None.
  Proof.
    intros P N H. pose proof (denotes_written loc P) as D.
    assert (B : forall r, In r (inserted_rows is) -> backend_row r) by (apply (flat_backend transform strip remount archive l Ht)).
    assert (R : forall r, In r (inserted_rows is) -> exists pos m body, In (pos, m, body) l /\ full_path r = written (location_of transform [] m)).
    { intros r I. unfold is in I. rewrite (flat_inserted transform strip remount archive l Ht) in I.
      apply in_flat_map in I as ([[pos m] body] & I & Hx). apply rows_of in Hx as (F & _). eauto 6. }
    destruct (built_rows is B) as (B1 & B2 & B3 & B4).
    assert (A0 : forall r, In r (build is) -> full_path r <> written loc).
    { intros r I F. destruct (B2 r I) as [(a & b & Q & _)|(below & pre & n & Ib & G & Dd)].
      - assert (I' : In r (inserted_rows is)) by (rewrite Q; apply in_or_app; right; now left). destruct (R r I') as (pos & m & body & I'' & F').
        rewrite F' in F. apply written_inj in F; [|apply denotes_proper|exact P]. apply (H pos m body [] I''). now rewrite app_nil_r.
      - destruct G as (G1 & _ & _ & _ & _ & _ & _ & _ & _ & _ & _ & rest & name & (M1 & M2 & M3)).
        destruct (R below Ib) as (pos & m & body & I'' & F'). rewrite F' in M3.
        apply Forall_app in M1 as [M0 M1]. pose proof (Forall_inv M1) as Pn. pose proof (Forall_inv_tail M1) as Pr.
        assert (Pp : Forall proper_name (pre ++ [n])) by (apply Forall_app; split; [assumption|constructor; [assumption|constructor]]).
        assert (Q : loc = pre ++ [n]) by (apply written_inj; [exact P|exact Pp|]; rewrite <- G1, F; reflexivity).
        apply (H pos m body (rest ++ [name]) I''). apply written_inj in M3; [|apply denotes_proper|].
        + rewrite M3, Q. now rewrite <- !app_assoc.
        + apply Forall_app. split; [|constructor; [assumption|constructor]]. apply Forall_app. split; [exact M0|now constructor]. }
    assert (Hp : starts_with $"../" (written loc) = false) by reflexivity.
    rewrite (lookup_spec now uid gid sh Hsh (build is) (written loc) B3 Hp ltac:(now rewrite D) _ (occurrences_exist _ _ B4)).
    assert (E0 : filter (at_path (written loc)) (build is) = []).
    { clear - A0 D. induction (build is) as [|r l' IH]; [reflexivity|]. cbn [filter]. destruct (at_path (written loc) r) eqn:Q.
      - exfalso. unfold at_path in Q. apply str_eqb_eq in Q. rewrite D in Q. now apply (A0 r); [left|].
      - apply IH. intros r' I. apply A0. now right. }
    rewrite E0. cbn. destruct (v <=? 0), (Z.to_nat _); reflexivity.
  Qed.

  Lemma decode_none loc : Forall proper_name loc -> loc <> [] -> Forall (fun n => ends_with $".versions" n = false) loc ->
    lookup now uid gid sh (build is) (written loc) 0 = None -> decode (tar_source now uid gid (build is) sh) (written loc) = None.
  Proof.
    intros P N V L. unfold decode.
    assert (E : split slash (lstrip slash (written loc)) = loc).
    { destruct loc as [|n loc']; [congruence|]. unfold written. rewrite lstrip_sep.
      assert (Hn : proper_name n) by (now apply Forall_inv in P). destruct n as [|c n']; [now destruct Hn|].
      assert (Hc : c <> slash) by (intros ->; destruct Hn as (_ & _ & _ & S); apply S; now left).
      assert (Ej : exists t, join $"/" ((c :: n') :: loc') = c :: t) by (destruct loc'; cbn; eauto). destruct Ej as (t & Ej). rewrite Ej.
      rewrite lstrip_id by exact Hc. rewrite <- Ej. apply split_join; [discriminate|]. revert P. apply Forall_impl. intros a (_ & _ & _ & S). exact S. }
    rewrite E. clear E.
    assert (G : forall b a v, loc = a ++ b -> b <> [] -> decode_parts (tar_source now uid gid (build is) sh) (mkD (folder_of a) false v) b = None).
    { induction b as [|n b IH]; intros a v E Nb; [congruence|]. cbn [decode_parts]. unfold decode_step. cbn [d_special d_path].
      rewrite (folder_child a n). cbn [s_lookup tar_source].
      assert (Vn : ends_with $".versions" n = false) by (rewrite Forall_forall in V; apply V; rewrite E; apply in_or_app; right; now left).
      destruct (lookup now uid gid sh (build is) (written (a ++ [n])) 0) eqn:Q.
      - destruct b as [|n' b]; [rewrite E in L; congruence|].
        replace (written (a ++ [n])) with (folder_of (a ++ [n])) by (now destruct a).
        apply IH; [|discriminate]. rewrite E, <- app_assoc. reflexivity.
      - change dot_versions with $".versions". rewrite Vn. reflexivity. }
    pose proof (G loc [] None eq_refl N) as X. cbn [folder_of] in X. now rewrite X.
  Qed.

  Lemma served_missing loc : Forall proper_name loc -> loc <> [] -> Forall (fun n => ends_with $".versions" n = false) loc ->
    (forall pos m body rest, In (pos, m, body) l -> location_of transform [] m <> loc ++ rest) ->
    served_lookup now uid gid (build is) sh (written loc) = Err ENOENT.
  Proof.
    intros P N V H. pose proof (flat_lookup_none loc 0 P N H) as L. unfold served_lookup, v_lookup, resolve_hard_links.
    cbn [s_lookup tar_source]. rewrite L. now rewrite decode_none.
  Qed.
End Lookup.
