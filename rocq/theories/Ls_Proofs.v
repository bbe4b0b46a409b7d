(** Lemmas about listing a mounted TAR archive. *)
From Coq Require Import Ascii String Permutation.
From Verif Require Import PyBase PyDict PyStr Path_Model Path_Spec Path_Proofs FileInfo Union_Model Index_Model Index_Spec Index_Proofs Build_Proofs
  SeqIndex_Proofs Version_Model Tar_Model Tar_Spec Tar_Proofs TarRead_Model TarRead_Spec TarRead_Proofs
  Front_Spec Front_Model Served_Spec Served_Model Served_Proofs Ls_Model.
Local Open Scope Z_scope.

Section Ls.
  Variable transform : str -> str.
  Variable strip : bool.
  Variable remount : option (str -> str).
  Variable archive : list block.
  Variable l : list (nat * member * list block).
  Hypothesis Ht : tarball archive l.
  Let is := index_part transform strip remount false archive 1 0 archive [] 0.
  Variables now uid gid : Z.
  Variable sh : list row -> list row.
  Hypothesis Hsh : any_order sh.
  Let src := tar_source now uid gid (build is) sh.

  Lemma inserted_member r : In r (inserted_rows is) -> exists pos m body, In (pos, m, body) l /\ full_path r = written (location_of transform [] m).
  Proof.
    intros I. unfold is in I. rewrite (flat_inserted transform strip remount archive l Ht) in I.
    apply in_flat_map in I as ([[pos m] body] & I & Hx). apply rows_of in Hx as (F & _). eauto 6.
  Qed.
  Lemma member_inserted pos m body : In (pos, m, body) l -> exists r, In r (inserted_rows is) /\ full_path r = written (location_of transform [] m).
  Proof.
    intros I. exists (file_row transform [] 0 0 pos m). split.
    - unfold is. rewrite (flat_inserted transform strip remount archive l Ht). apply in_flat_map. exists (pos, m, body). split; [exact I|].
      unfold file_rows. destruct (char_eqb (m_type m) "D"); now left.
    - apply (file_row_fields transform [] 0 0 pos m).
  Qed.

  (** The rows in a folder. *)
  Lemma row_in_folder loc n : Forall proper_name loc -> n <> [] ->
    (exists r, In r (build is) /\ r_path r = folder_of loc /\ r_name r = n) <->
    (exists pos m body rest, In (pos, m, body) l /\ location_of transform [] m = loc ++ n :: rest).
  Proof.
    intros P N. assert (B : forall r, In r (inserted_rows is) -> backend_row r) by (apply (flat_backend transform strip remount archive l Ht)).
    destruct (built_rows is B) as (B1 & B2 & B3 & B4). split.
    - intros (r & I & E1 & E2). destruct (B2 r I) as [(a & b & Q & _)|(below & pre & n' & Ib & G & _)].
      + assert (I' : In r (inserted_rows is)) by (rewrite Q; apply in_or_app; right; now left).
        destruct (inserted_member r I') as (pos & m & body & Im & F). exists pos, m, body, []. split; [exact Im|].
        destruct (B r I') as [S [[_ R2]|(loc' & name & Mr)]]; [congruence|]. destruct (member_row_split r loc' name S Mr) as [S1 S2].
        destruct Mr as (P1 & P2 & F'). rewrite S1 in E1. apply folder_of_inj in E1; [|exact P1|exact P]. rewrite S2 in E2. subst loc' name.
        rewrite F in F'. apply written_inj in F'; [exact F'|apply denotes_proper|]. apply Forall_app. split; [exact P|now constructor].
      + destruct G as (G1 & _ & _ & _ & _ & _ & _ & _ & _ & _ & _ & rest & name & (M1 & M2 & M3)).
        destruct (inserted_member below Ib) as (pos & m & body & Im & F).
        assert (Pp := M1). apply Forall_app in Pp as [P0 Pr]. pose proof (Forall_inv Pr) as Pn.
        assert (Mr : member_row r pre n') by (split; [exact P0|split; [exact Pn|exact G1]]).
        destruct (member_row_split r pre n' (B3 r I) Mr) as [S1 S2]. rewrite S1 in E1. apply folder_of_inj in E1; [|exact P0|exact P]. rewrite S2 in E2. subst pre n'.
        exists pos, m, body, (rest ++ [name]). split; [exact Im|]. rewrite F in M3. apply written_inj in M3; [|apply denotes_proper|].
        * rewrite M3. now rewrite <- app_assoc.
        * apply Forall_app. split; [exact M1|now constructor].
    - intros (pos & m & body & rest & I & E). destruct (member_inserted pos m body I) as (r & Ir & F).
      assert (Pm : Forall proper_name (location_of transform [] m)) by apply denotes_proper.
      destruct (exists_last (l := location_of transform [] m)) as (loc' & name & E'); [rewrite E; now destruct loc|].
      rewrite E' in F, Pm. apply Forall_app in Pm as [Pm1 Pm2]. pose proof (Forall_inv Pm2) as Pn.
      apply (row_for_prefix is r loc' name loc n rest B Ir); [split; [exact Pm1|split; [exact Pn|exact F]]|]. now rewrite <- E', E.
  Qed.

  Lemma list_mode_keys loc : Forall proper_name loc ->
    match Index_Model.list_mode sh (build is) (written loc) with
    | Some d => NoDup (dkeys d) /\ forall n, In n (dkeys d) <-> exists pos m body rest, In (pos, m, body) l /\ location_of transform [] m = loc ++ n :: rest
    | None => forall pos m body n rest, In (pos, m, body) l -> location_of transform [] m <> loc ++ n :: rest
    end.
  Proof.
    intros P. change (Index_Model.list_mode sh (build is) (written loc)) with (Index_Proofs.listing r_mode sh (build is) (written loc)).
    assert (Hp : starts_with $"../" (written loc) = false) by reflexivity.
    pose proof (listing_None r_mode sh Hsh (build is) (written loc) Hp) as HN.
    assert (NE : forall pos m body n rest, In (pos, m, body) l -> location_of transform [] m = loc ++ n :: rest -> n <> []).
    { intros pos m body n rest I E. assert (Pm : Forall proper_name (location_of transform [] m)) by apply denotes_proper. rewrite E in Pm.
      apply Forall_app in Pm as [_ Pm]. apply Forall_inv in Pm. apply Pm. }
    assert (Fo : forall r, in_folder (written loc) r = true <-> r_path r = folder_of loc).
    { intros r. unfold in_folder. rewrite denotes_written by exact P. destruct (str_eqb_spec (r_path r) (folder_of loc)); split; congruence. }
    destruct (Index_Proofs.listing r_mode sh (build is) (written loc)) as [d|] eqn:E.
    - destruct (listing_keys r_mode sh Hsh (build is) (written loc) Hp d E) as [Nd K]. split; [exact Nd|]. intros n. rewrite K. split.
      + intros (N & r & I & F & Rn). apply (row_in_folder loc n P N). exists r. rewrite <- Fo. auto.
      + intros (pos & m & body & rest & I & El). pose proof (NE _ _ _ _ _ I El) as N. split; [exact N|].
        destruct (proj2 (row_in_folder loc n P N)) as (r & Ir & F & Rn); [eauto 6|]. exists r. rewrite Fo. auto.
    - intros pos m body n rest I El. pose proof (NE _ _ _ _ _ I El) as N.
      destruct (proj2 (row_in_folder loc n P N)) as (r & Ir & F & Rn); [eauto 6|]. destruct HN as [HN _]. specialize (HN eq_refl).
      assert (Hin : In r (filter (in_folder (written loc)) (build is))) by (apply filter_In; split; [exact Ir|now apply Fo]). now rewrite HN in Hin.
  Qed.

  (** Everything with something below it exists. *)
  Lemma prefix_exists pre n rest pos m body : In (pos, m, body) l -> location_of transform [] m = pre ++ n :: rest ->
    lookup now uid gid sh (build is) (written pre) 0 <> None.
  Proof.
    intros I E. assert (B : forall r, In r (inserted_rows is) -> backend_row r) by (apply (flat_backend transform strip remount archive l Ht)).
    destruct (member_inserted pos m body I) as (r & Ir & F). assert (Pm : Forall proper_name (location_of transform [] m)) by apply denotes_proper.
    destruct (exists_last (l := location_of transform [] m)) as (loc' & name & E'); [rewrite E; now destruct pre|].
    rewrite E' in F, Pm. apply Forall_app in Pm as [Pm1 Pm2]. pose proof (Forall_inv Pm2) as Pn.
    apply (proj2 (all_reached is sh sh now uid gid Hsh Hsh B r loc' name Ir ltac:(split; [exact Pm1|split; [exact Pn|exact F]])) pre (n :: rest)).
    now rewrite <- E', E.
  Qed.

  (** Without a .versions in it, or if all folders on the way exist, a path is decoded to itself or not at all. *)
  Lemma split_lstrip_written loc : Forall proper_name loc -> loc <> [] -> split slash (lstrip slash (written loc)) = loc.
  Proof.
    intros P N. destruct loc as [|n loc']; [congruence|]. unfold written. rewrite lstrip_sep.
    assert (Hn : proper_name n) by (now apply Forall_inv in P). destruct n as [|c n']; [now destruct Hn|].
    assert (Hc : c <> slash) by (intros ->; destruct Hn as (_ & _ & _ & S); apply S; now left).
    assert (Ej : exists t, join $"/" ((c :: n') :: loc') = c :: t) by (destruct loc'; cbn; eauto). destruct Ej as (t & Ej). rewrite Ej.
    rewrite lstrip_id by exact Hc. rewrite <- Ej. apply split_join; [discriminate|]. revert P. apply Forall_impl. intros a (_ & _ & _ & S). exact S.
  Qed.

  Lemma decode_plain loc : Forall proper_name loc ->
    (forall a n b, loc = a ++ n :: b -> ends_with $".versions" n = false \/ lookup now uid gid sh (build is) (written (a ++ [n])) 0 <> None) ->
    decode src (written loc) = None \/ decode src (written loc) = Some (written loc, false, 0).
  Proof.
    intros P V. unfold decode. destruct loc as [|n0 loc0]; [right; reflexivity|]. set (loc := n0 :: loc0) in *.
    rewrite split_lstrip_written by (exact P || discriminate).
    assert (G : forall b a v, loc = a ++ b -> b <> [] ->
      decode_parts src (mkD (folder_of a) false v) b = None \/ decode_parts src (mkD (folder_of a) false v) b = Some (mkD (written loc) false (Some 0))).
    { induction b as [|n b IH]; intros a v E Nb; [congruence|]. cbn [decode_parts]. unfold decode_step. cbn [d_special d_path].
      rewrite (folder_child a n). unfold src at 1 3. cbn [s_lookup tar_source].
      specialize (V a n b E). destruct (lookup now uid gid sh (build is) (written (a ++ [n])) 0) eqn:Q.
      - destruct b as [|n' b]; [right; cbn [decode_parts]; now rewrite E|].
        replace (written (a ++ [n])) with (folder_of (a ++ [n])) by (now destruct a).
        apply IH; [|discriminate]. rewrite E, <- app_assoc. reflexivity.
      - left. destruct V as [V|V]; [|congruence]. change dot_versions with $".versions". now rewrite V. }
    destruct (G loc [] None eq_refl ltac:(discriminate)) as [X|X]; cbn [folder_of] in X; rewrite X; [now left|now right].
  Qed.

  (** What exists is shown. *)
  Lemma ls_lookup_some loc : Forall proper_name loc ->
    (forall a b, loc = a ++ b -> lookup now uid gid sh (build is) (written a) 0 <> None) ->
    exists i, ls_lookup now uid gid (build is) sh (written loc) = Some i.
  Proof.
    intros P H. unfold ls_lookup, served_lookup, v_lookup. fold src. destruct (resolve_hard_links src _ (written loc)) as [i|]; [eauto|].
    destruct (decode_plain loc P) as [D|D].
    - intros a n b E. right. apply (H (a ++ [n]) b). now rewrite <- app_assoc.
    - exfalso. revert D. unfold decode. destruct loc as [|n0 loc0]; [discriminate|]. set (loc := n0 :: loc0) in *.
      rewrite split_lstrip_written by (exact P || discriminate).
      assert (G : forall b a v, loc = a ++ b -> b <> [] -> exists st, decode_parts src (mkD (folder_of a) false v) b = Some st /\ d_version st = Some 0).
      { induction b as [|n b IH]; intros a v E Nb; [congruence|]. cbn [decode_parts]. unfold decode_step. cbn [d_special d_path].
        rewrite (folder_child a n). unfold src at 1. cbn [s_lookup tar_source].
        assert (E' : loc = (a ++ [n]) ++ b) by (now rewrite <- app_assoc). specialize (H (a ++ [n]) b E').
        destruct (lookup now uid gid sh (build is) (written (a ++ [n])) 0) eqn:Q; [|congruence].
        destruct b as [|n' b]; [eexists; split; [reflexivity|reflexivity]|].
        replace (written (a ++ [n])) with (folder_of (a ++ [n])) by (now destruct a). now apply IH. }
      destruct (G loc [] None eq_refl ltac:(discriminate)) as (st & X & Y). cbn [folder_of] in X. rewrite X, Y. discriminate.
    - rewrite D. unfold src. cbn [s_lookup tar_source]. specialize (H loc [] (eq_sym (app_nil_r loc))).
      destruct (lookup now uid gid sh (build is) (written loc) 0) as [i|]; [|congruence]. cbn [option_map]. eauto.
  Qed.
End Ls.
