(** Proofs about committing an overlay. *)
From Coq Require Import Ascii String Permutation.
From Verif Require Import PyBase PyDict PyStr Path_Spec Path_Proofs Overlay_Model Overlay_Spec Overlay_Proofs Overlay_Steps
  Overlay_Results Commit_Model Commit_Spec.

(** ** Names *)

Lemma lstrip_shorter c s : length (lstrip c s) <= length s.
Proof.
  induction s as [|y s IH]; [auto|].
  change (lstrip c (y :: s)) with (if char_eqb y c then lstrip c s else y :: s).
  destruct (char_eqb y c); cbn [length]; lia.
Qed.

Lemma rstrip_last s c : s <> [] -> rstrip c s = s -> exists t x, s = t ++ [x] /\ x <> c.
Proof.
  intros N H. destruct (exists_last N) as (t & x & ->). exists t, x; split; [reflexivity|]. intros ->.
  rewrite rstrip_snoc_sep in H. unfold rstrip in H.
  pose proof (lstrip_shorter c (rev t)) as L.
  apply (f_equal (@length ascii)) in H. rewrite rev_length, app_length in H. cbn in H. rewrite rev_length in L. lia.
Qed.

Lemma rstrip_keep a s c : s <> [] -> rstrip c s = s -> rstrip c (a ++ s) = a ++ s.
Proof.
  intros N H. destruct (rstrip_last s c N H) as (t & x & -> & Hx). rewrite app_assoc. now apply rstrip_snoc.
Qed.

Lemma rstrip_join q : Forall proper_name q -> q <> [] -> rstrip slash (join $"/" q) = join $"/" q.
Proof.
  intros P N. pose proof (strip_written q P N) as H. unfold strip, written in H.
  rewrite lstrip_sep, join_head in H by exact P. exact H.
Qed.

Lemma rstrip_spelled pre q post : Forall proper_name q -> q <> [] -> In post [[]; $"/"] ->
  rstrip slash (pre ++ join $"/" q ++ post) = pre ++ join $"/" q.
Proof.
  intros P N I. assert (rstrip slash (pre ++ join $"/" q) = pre ++ join $"/" q) as K.
  { apply rstrip_keep; [now apply join_nonempty|now apply rstrip_join]. }
  destruct I as [<-|[<-|[]]].
  - now rewrite app_nil_r.
  - rewrite app_assoc. change ($"/") with [slash] at 2. now rewrite rstrip_snoc_sep.
Qed.

Lemma selects_spec pat name : tar_selects pat name = true <->
  exists rest, split slash (rstrip slash name) = split slash pat ++ rest.
Proof.
  unfold tar_selects. set (n := rstrip slash name). rewrite orb_true_iff, str_eqb_eq, starts_with_spec. split.
  - intros [->|(t & ->)]; [exists []; now rewrite app_nil_r|].
    rewrite <- app_assoc. change ($"/" ++ t) with (slash :: t). exists (split slash t). apply split_app_sep.
  - intros (rest & H). destruct rest as [|x rest].
    + left. rewrite app_nil_r in H. rewrite <- (join_split slash n), H. apply join_split.
    + right. exists (join [slash] (x :: rest)). rewrite <- (join_split slash n), H.
      rewrite join_app by (try apply split_nonempty; discriminate). rewrite join_split, app_assoc. reflexivity.
Qed.

(** The components in front of the names of a spelling. *)
Definition lead (pre : str) : list str :=
  if str_eqb pre [] then [] else if str_eqb pre $"/" then [[]] else [$"."].

Lemma split_spelled pre q : In pre [[]; $"/"; $"./"] -> Forall proper_name q -> q <> [] ->
  split slash (pre ++ join $"/" q) = lead pre ++ q.
Proof.
  intros I P N. pose proof (split_join slash q N (proper_no_slash q P)) as H.
  destruct I as [<-|[<-|[<-|[]]]].
  - exact H.
  - change ($"/" ++ join $"/" q) with (slash :: join [slash] q). rewrite split_cons_sep, H. reflexivity.
  - change ($"./" ++ join $"/" q) with ($"." ++ slash :: join [slash] q).
    rewrite split_app, H; [reflexivity|]. intros [X|[]]. discriminate X.
Qed.

Lemma lead_names pre : In pre [[]; $"/"; $"./"] -> forall x, In x (lead pre) -> ~ proper_name x.
Proof.
  intros I x. destruct I as [<-|[<-|[<-|[]]]]; cbn; intros J (P1 & P2 & _).
  - destruct J.
  - destruct J as [<-|[]]. now apply P1.
  - destruct J as [<-|[]]. now apply P2.
Qed.

Lemma lead_inj pre pre' p q rest : In pre [[]; $"/"; $"./"] -> In pre' [[]; $"/"; $"./"] ->
  Forall proper_name p -> p <> [] -> Forall proper_name q ->
  lead pre ++ q = lead pre' ++ p ++ rest -> q = p ++ rest.
Proof.
  intros I I' P N Q H. destruct p as [|a p]; [congruence|]. inversion P as [|? ? Pa Pp]; subst.
  pose proof Pa as (A1 & A2 & _).
  assert (forall b, In b q -> b <> [] /\ b <> $".") as Hq.
  { intros b Ib. rewrite Forall_forall in Q. destruct (Q b Ib) as (? & ? & _). auto. }
  destruct I as [<-|[<-|[<-|[]]]], I' as [<-|[<-|[<-|[]]]];
    change (lead []) with (@nil str) in H; change (lead $"/") with [@nil ascii] in H;
    change (lead $"./") with [$"."] in H; cbn [app] in H; try exact H; try congruence.
  - exfalso. destruct (Hq []) as (X & _); [rewrite H; now left|congruence].
  - exfalso. destruct (Hq $".") as (_ & X); [rewrite H; now left|congruence].
  - now injection H.
  - discriminate H.
  - discriminate H.
  - now injection H.
Qed.

Lemma denotes_spelled pre q post : In pre [[]; $"/"; $"./"] -> In post [[]; $"/"] -> Forall proper_name q -> q <> [] ->
  denotes (pre ++ join $"/" q ++ post) = q.
Proof.
  intros I J P N. unfold denotes.
  assert (fold_left enter (split slash (pre ++ join $"/" q)) [] = q) as H.
  { rewrite split_spelled by auto. rewrite fold_left_app. replace (fold_left enter (lead pre) []) with (@nil str).
    - rewrite walk_names by exact P. reflexivity.
    - destruct I as [<-|[<-|[<-|[]]]]; reflexivity. }
  destruct J as [<-|[<-|[]]].
  - rewrite app_nil_r. exact H.
  - rewrite app_assoc. change ($"/") with (slash :: []) at 2. rewrite split_app_sep, fold_left_app, H. reflexivity.
Qed.

(** A name is selected by one of the three spellings of a path exactly if it denotes something at or below the path. *)
Lemma spellings_select p name : Forall proper_name p -> p <> [] -> well_spelled name ->
  existsb (fun pat => tar_selects pat name) (add_to_deletion_file p) = true <-> at_or_below p (denotes name).
Proof.
  intros P N W. rewrite existsb_exists.
  assert (forall pat, In pat (add_to_deletion_file p) <->
                      exists pre, In pre [[]; $"/"; $"./"] /\ pat = pre ++ join $"/" p) as Pats.
  { intros pat. unfold add_to_deletion_file, relative. cbn [In]. split.
    - intros [<-|[<-|[<-|[]]]]; [exists []|exists ($"/")|exists ($"./")]; split; auto; cbn; auto.
    - intros (pre & [<-|[<-|[<-|[]]]] & ->); auto. }
  destruct W as [(q & Nq & Pq & pre & post & I & J & ->)|W].
  - rewrite (denotes_spelled pre q post I J Pq Nq). split.
    + intros (pat & Ip & S). apply Pats in Ip. destruct Ip as (pre' & I' & ->).
      apply selects_spec in S. destruct S as (rest & S).
      rewrite rstrip_spelled, split_spelled, split_spelled in S by auto. rewrite <- app_assoc in S.
      exists rest. now apply (lead_inj pre pre').
    + intros (rest & ->). exists (pre ++ join $"/" p). split; [apply Pats; eauto|].
      apply selects_spec. exists rest. rewrite rstrip_spelled, split_spelled, split_spelled by auto.
      apply app_assoc.
  - assert (rstrip slash name = $"." /\ denotes name = []) as (R & D) by (destruct W as [-> | ->]; split; reflexivity).
    rewrite D. split.
    + intros (pat & Ip & S). apply Pats in Ip. destruct Ip as (pre' & I' & ->).
      apply selects_spec in S. destruct S as (rest & S). rewrite R, split_spelled in S by auto.
      change (split slash $".") with [$"."] in S. destruct p as [|a p]; [congruence|].
      inversion P as [|? ? (A1 & A2 & _) _]; subst.
      destruct I' as [<-|[<-|[<-|[]]]]; cbn in S; try discriminate S.
      injection S as S _. contradict A2. now rewrite <- S.
    + intros (rest & H). destruct p; [congruence|discriminate].
Qed.

(** ** Archives *)

Section Archive.
  Context {A : Type}.
  Notation member := (str * @lnode A)%type.

  Lemma In_members_at (M : list member) q m : In m (members_at M q) <-> In m M /\ denotes (fst m) = q.
  Proof.
    unfold members_at. rewrite filter_In. split; intros (H1 & H2); split; auto.
    - now destruct (loc_eqb_spec (denotes (fst m)) q).
    - subst q. apply loc_eqb_refl.
  Qed.

  Lemma members_at_app (M N : list member) q : members_at (M ++ N) q = members_at M q ++ members_at N q.
  Proof. unfold members_at. apply filter_app. Qed.

  Lemma shows_last (M N : list member) q m : In m N -> denotes (fst m) = q ->
    exists m', In m' N /\ denotes (fst m') = q /\ archive_shows (M ++ N) q = Some (snd m').
  Proof.
    intros I D. unfold archive_shows. rewrite members_at_app, rev_app_distr.
    destruct (rev (members_at N q)) as [|m' r] eqn:E.
    - exfalso. assert (In m (members_at N q)) as J by (now apply In_members_at).
      apply in_rev in J. rewrite E in J. destruct J.
    - exists m'. assert (In m' (members_at N q)) as J by (apply in_rev; rewrite E; now left).
      apply In_members_at in J. destruct J. auto.
  Qed.

  Lemma existsb_false {X} (f : X -> bool) l : existsb f l = false <-> forall x, In x l -> f x = false.
  Proof.
    split.
    - intros H x I. destruct (f x) eqn:E; [|reflexivity].
      assert (existsb f l = true) as C by (apply existsb_exists; eauto). congruence.
    - intros H. destruct (existsb f l) eqn:E; [|reflexivity].
      apply existsb_exists in E. destruct E as (x & I & Ex). rewrite (H x I) in Ex. discriminate.
  Qed.

  Lemma shows_None (M : list member) q : archive_shows M q = None <->
    forall m, In m M -> ~ at_or_below q (denotes (fst m)).
  Proof.
    unfold archive_shows. destruct (rev (members_at M q)) as [|m' r] eqn:E.
    - destruct (existsb _ M) eqn:X.
      + apply existsb_exists in X. destruct X as (m & I & B). destruct (loc_prefix_spec q (denotes (fst m))) as [B'|]; [|discriminate].
        split; [discriminate|]. intros H. now destruct (H m I).
      + rewrite existsb_false in X. split; [|auto]. intros _ m I B. specialize (X m I). cbn in X.
        destruct (loc_prefix_spec q (denotes (fst m))); [discriminate|auto].
    - split; [discriminate|]. intros H. exfalso.
      assert (In m' (members_at M q)) as J by (apply in_rev; rewrite E; now left).
      apply In_members_at in J. destruct J as (J & <-). apply (H m' J). exists []. now rewrite app_nil_r.
  Qed.

  (** Nothing at [q] itself: a folder if there is something below. *)
  Lemma shows_implied (M : list member) q : members_at M q = [] ->
    archive_shows M q = None \/ archive_shows M q = Some LDir.
  Proof. unfold archive_shows. intros ->. cbn. destruct (existsb _ M); auto. Qed.

  Lemma shows_same (M N : list member) q : members_at M q = members_at N q -> members_at M q <> [] ->
    archive_shows M q = archive_shows N q.
  Proof.
    unfold archive_shows. intros <- H. destruct (rev (members_at M q)) as [|m r] eqn:E; [|reflexivity].
    exfalso. apply H. rewrite <- (rev_involutive (members_at M q)), E. reflexivity.
  Qed.

  Lemma shows_members (M : list member) q n : archive_shows M q = Some n -> n <> LDir -> members_at M q <> [].
  Proof.
    intros H N E. destruct (shows_implied M q E) as [X|X]; rewrite X in H; congruence.
  Qed.
End Archive.

Section Commit.
  Context {A : Type}.
  Variable lower : location -> option (@lnode A).
  Notation member := (str * @lnode A)%type.

  Definition blocked (st : @ostate A) (q : location) : Prop :=
    exists p, at_or_below p q /\ (is_deleted st p = true \/ exists n, oget (o_fs st) p = Some n /\ n <> ODir).

  Lemma In_deleted_paths st p : NoDup (map fst (o_rows st)) -> In p (deleted_paths (A := A) st) <-> is_deleted st p = true.
  Proof.
    intros N. unfold deleted_paths, is_deleted, rget. rewrite in_map_iff. split.
    - intros ([k r] & <- & I). apply filter_In in I. destruct I as (I & D). cbn [fst snd] in *.
      now rewrite (NoDup_dget loc_eqb loc_eqb_spec (o_rows st) k r N I).
    - destruct (dget loc_eqb (o_rows st) p) as [r|] eqn:E; [|discriminate]. intros D.
      apply (dget_Some_In loc_eqb loc_eqb_spec) in E. exists (p, r); split; [reflexivity|]. apply filter_In; auto.
  Qed.

  Lemma In_walked_files (st : @ostate A) p : NoDup (map fst (o_fs st)) ->
    In p (walked_files st) <-> exists n, oget (o_fs st) p = Some n /\ n <> ODir.
  Proof.
    intros N. unfold walked_files, oget. rewrite in_map_iff. split.
    - intros ([k n] & <- & I). apply filter_In in I. destruct I as (I & D). cbn [fst snd] in *.
      exists n. split; [now apply (NoDup_dget loc_eqb loc_eqb_spec)|]. intros ->; discriminate.
    - intros (n & E & D). apply (dget_Some_In loc_eqb loc_eqb_spec) in E. exists (p, n); split; [reflexivity|].
      apply filter_In; split; [exact E|]. destruct n; cbn; congruence.
  Qed.

  Section State.
    Variable st : @ostate A.
    Hypothesis W : well_kept st.
    Hypothesis C : clean lower st.

    (** The members of the archive that stay are those nothing at or above is deleted or replaced by a file of. *)
    Lemma stays name : well_spelled name ->
      existsb (fun pat => tar_selects pat name) (deletions st) = true <-> blocked st (denotes name).
    Proof.
      intros S. unfold deletions. destruct W as (_ & ND & _). rewrite existsb_exists. split.
      - intros (pat & I & H). apply in_flat_map in I. destruct I as (p & I & Ip).
        assert (existsb (fun pat => tar_selects pat name) (add_to_deletion_file p) = true) as X
          by (apply existsb_exists; eauto).
        apply in_app_iff in I. destruct I as [I|I].
        + apply In_deleted_paths in I; [|exact ND]. destruct (clean_deleted_names lower st C p I) as (Np & Pp).
          apply spellings_select in X; auto. exists p; auto.
        + apply In_walked_files in I; [|apply (clean_fs lower st C)]. destruct I as (n & E & D).
          destruct (clean_names lower st C p) as (Np & Pp); [congruence|].
          apply spellings_select in X; auto. exists p; eauto.
      - intros (p & B & H).
        assert (p <> [] /\ Forall proper_name p) as (Np & Pp).
        { destruct H as [H|(n & E & _)]; [now apply (clean_deleted_names lower st C)|].
          apply (clean_names lower st C). congruence. }
        apply (spellings_select p name Pp Np S) in B. apply existsb_exists in B. destruct B as (pat & Ip & B).
        exists pat; split; [|exact B]. apply in_flat_map. exists p; split; [|exact Ip]. apply in_app_iff.
        destruct H as [H|H]; [left; now apply In_deleted_paths|right; apply In_walked_files; [apply (clean_fs lower st C)|exact H]].
    Qed.

    Lemma members_kept (M : list member) q : Forall (fun m => well_spelled (fst m)) M -> ~ blocked st q ->
      members_at (tar_delete (deletions st) M) q = members_at M q.
    Proof.
      intros S B. unfold tar_delete, members_at. induction S as [|m M S1 S IH]; [reflexivity|]. cbn [filter].
      destruct (existsb (fun pat => tar_selects pat (fst m)) (deletions st)) eqn:E; cbn [negb filter].
      - rewrite IH. destruct (loc_eqb_spec (denotes (fst m)) q) as [D|]; [|reflexivity].
        apply stays in E; [|exact S1]. rewrite D in E. contradiction.
      - now rewrite IH.
    Qed.

    Lemma members_gone (M : list member) m : Forall (fun m => well_spelled (fst m)) M ->
      In m (tar_delete (deletions st) M) -> In m M /\ ~ blocked st (denotes (fst m)).
    Proof.
      intros S I. apply filter_In in I. destruct I as (I & H). split; [exact I|]. intros B.
      rewrite Forall_forall in S. apply (stays (fst m) (S m I)) in B. now rewrite B in H.
    Qed.

    Lemma member_denotes e : In e (o_fs st) -> denotes (fst (member_of st e)) = fst e.
    Proof.
      intros I. assert (oget (o_fs st) (fst e) = Some (snd e)) as G.
      { apply (NoDup_dget loc_eqb loc_eqb_spec); [apply (clean_fs lower st C)|]. now destruct e. }
      destruct (clean_names lower st C (fst e)) as (N & P); [congruence|].
      unfold member_of, relative. destruct (snd e); cbn [fst].
      - change (join $"/" (fst e) ++ $"/") with ([] ++ join $"/" (fst e) ++ $"/").
        apply denotes_spelled; auto; cbn; auto.
      - rewrite <- (app_nil_r (join _ _)). change (join $"/" (fst e) ++ []) with ([] ++ join $"/" (fst e) ++ []).
        apply denotes_spelled; auto; cbn; auto.
      - rewrite <- (app_nil_r (join _ _)). change (join $"/" (fst e) ++ []) with ([] ++ join $"/" (fst e) ++ []).
        apply denotes_spelled; auto; cbn; auto.
    Qed.

    (** What an entry of the overlay folder is stored as. *)
    Definition stored (n : onode) : @lnode A :=
      match n with ODir => LDir | OFile i => LFile (content_of st i) | OLink t => LLink t end.

    Lemma stored_entry n : entry_of_lower (stored n) = entry_of_overlay st n.
    Proof. now destruct n. Qed.

    Lemma appended_entry m : In m (appended st) ->
      exists n, oget (o_fs st) (denotes (fst m)) = Some n /\ snd m = stored n.
    Proof.
      intros I. assert (exists e, In e (o_fs st) /\ m = member_of st e) as (e & Ie & ->).
      { unfold appended in I. apply in_app_iff in I. destruct I as [I|I].
        - apply in_map_iff in I. destruct I as (e & <- & I). apply filter_In in I. destruct I. eauto.
        - apply in_flat_map in I. destruct I as (d & _ & I). apply in_map_iff in I. destruct I as (e & <- & I).
          apply filter_In in I. destruct I. eauto. }
      rewrite member_denotes by exact Ie. exists (snd e). split.
      - apply (NoDup_dget loc_eqb loc_eqb_spec); [apply (clean_fs lower st C)|]. now destruct e.
      - unfold member_of. now destruct (snd e).
    Qed.

    Lemma appended_file p n : oget (o_fs st) p = Some n -> n <> ODir ->
      exists m, In m (appended st) /\ denotes (fst m) = p.
    Proof.
      intros E D. apply (dget_Some_In loc_eqb loc_eqb_spec) in E. exists (member_of st (p, n)). split.
      - unfold appended. apply in_app_iff; left. apply in_map. apply filter_In; split; [exact E|]. destruct n; cbn; congruence.
      - now rewrite member_denotes.
    Qed.

    Lemma appended_folder p : oget (o_fs st) p = Some ODir ->
      (exists m, In m (appended st) /\ denotes (fst m) = p) \/
      (exists m r, In m (appended st) /\ r <> [] /\ denotes (fst m) = p ++ r).
    Proof.
      intros E. pose proof (dget_Some_In loc_eqb loc_eqb_spec _ _ _ E) as I.
      destruct (existsb (fun f => is_child p f) (walked_files st)) eqn:X.
      - right. apply existsb_exists in X. destruct X as (f & If & H). unfold is_child in H.
        apply andb_true_iff in H. destruct H as (H1 & H2). destruct (loc_eqb_spec (removelast f) p) as [Ef|]; [|discriminate].
        destruct (loc_eqb_spec f []) as [|Nf]; [discriminate|].
        apply In_walked_files in If; [|apply (clean_fs lower st C)]. destruct If as (n & G & D).
        destruct (appended_file f n G D) as (m & Im & Dm). exists m, [last f []]. split; [exact Im|]. split; [discriminate|].
        rewrite Dm, <- Ef. now apply app_removelast_last.
      - left. exists (member_of st (p, ODir)). split; [|now rewrite member_denotes].
        unfold appended. apply in_app_iff; right. apply in_flat_map. exists p. split.
        + unfold fileless_folders. apply in_map_iff. exists (p, ODir). split; [reflexivity|]. apply filter_In.
          split; [exact I|]. cbn [fst snd is_file negb andb]. now rewrite X.
        + apply in_map. apply filter_In. split; [exact I|]. cbn [fst]. apply loc_prefix_refl.
    Qed.

    (** The overlay folder is a tree. *)
    Lemma overlay_above p r n : oget (o_fs st) (p ++ r) = Some n -> r <> [] -> p <> [] -> oget (o_fs st) p = Some ODir.
    Proof.
      destruct W as (_ & _ & T). revert n. induction r as [|x r IH] using rev_ind; [congruence|]. intros n E _ N.
      rewrite app_assoc in E. specialize (T (p ++ r) x). rewrite E in T.
      assert (overlay_is_dir st (p ++ r) = true) as D by (apply T; discriminate).
      destruct r as [|y r].
      - rewrite app_nil_r in D. unfold overlay_is_dir in D. destruct p as [|l p]; [congruence|].
        destruct (oget (o_fs st) (l :: p)) as [[]|]; congruence.
      - apply (IH ODir); [|discriminate|exact N]. unfold overlay_is_dir in D.
        destruct (p ++ y :: r) as [|a l] eqn:L; [destruct p; discriminate|].
        destruct (oget (o_fs st) (a :: l)) as [[]|]; congruence.
    Qed.

    (** Everything above something shown is a shown folder. *)
    Lemma shown_above p r : visible lower st (p ++ r) <> None -> r <> [] -> p <> [] -> visible lower st p = Some EDir.
    Proof.
      induction r as [|x r IH] using rev_ind; [congruence|]. intros V _ N. rewrite app_assoc in V.
      apply (clean_tree lower st C) in V. destruct r as [|y r].
      - rewrite app_nil_r in V. destruct V; congruence.
      - apply IH; [|discriminate|exact N]. destruct V as [V|V]; [destruct p; discriminate|rewrite V; discriminate].
    Qed.

    Lemma visible_unblocked q e : q <> [] -> visible lower st q = Some e -> oget (o_fs st) q = None -> ~ blocked st q.
    Proof.
      intros N V O (p & (r & ->) & H). destruct r as [|x r].
      - rewrite app_nil_r in *. destruct H as [H|(n & H & _)]; [|congruence].
        unfold visible in V. rewrite H in V. discriminate.
      - assert (p <> []) as Np.
        { destruct H as [H|(n & E & _)]; [now apply (clean_deleted_names lower st C)|].
          apply (clean_names lower st C). congruence. }
        assert (visible lower st p = Some EDir) as D.
        { apply (shown_above p (x :: r)); [congruence|discriminate|exact Np]. }
        destruct H as [H|(n & E & F)].
        + unfold visible in D. rewrite H in D. discriminate.
        + unfold visible in D. destruct (is_deleted st p); [discriminate|].
          rewrite (oget_Some_lookup lower st p n Np E) in D. destruct n; cbn in D; congruence.
    Qed.

    Variable M : list member.
    Hypothesis spelled : Forall (fun m => well_spelled (fst m)) M.
    Hypothesis low : forall q, q <> [] -> lower q = archive_shows M q.
    Variable app : list member.
    Hypothesis order : Permutation app (appended st).

    Notation M' := (commit st app M).

    Lemma In_app m : In m app <-> In m (appended st).
    Proof. split; apply Permutation_in; [exact order|now apply Permutation_sym]. Qed.

    Lemma no_app q : q <> [] -> oget (o_fs st) q = None -> forall m, In m app -> ~ at_or_below q (denotes (fst m)).
    Proof.
      intros N O m I (r & B). apply In_app in I. destruct (appended_entry m I) as (n & E & _). rewrite B in E.
      destruct r as [|x r]; [rewrite app_nil_r in E; congruence|].
      rewrite (overlay_above q (x :: r) n E) in O by (discriminate || exact N). discriminate.
    Qed.

    Lemma no_app_members q : q <> [] -> oget (o_fs st) q = None -> members_at app q = [].
    Proof.
      intros N O. destruct (members_at app q) as [|m r] eqn:E; [reflexivity|]. exfalso.
      assert (In m (members_at app q)) as I by (rewrite E; now left). apply In_members_at in I. destruct I as (I & D).
      apply (no_app q N O m I). rewrite D. exists []. now rewrite app_nil_r.
    Qed.

    (** Where the overlay has an entry, the archive has it as well afterwards. *)
    Lemma commit_overlay_entry q n : q <> [] -> oget (o_fs st) q = Some n -> archive_shows M' q = Some (stored n).
    Proof.
      intros N O.
      assert (forall m, In m app -> denotes (fst m) = q -> archive_shows M' q = Some (stored n)) as Done.
      { intros m I D. unfold commit. destruct (shows_last (tar_delete (deletions st) M) app q m I D) as (m' & I' & D' & ->).
        apply In_app in I'. destruct (appended_entry m' I') as (n' & E' & ->). rewrite D', O in E'.
        injection E' as <-. reflexivity. }
      assert (n <> ODir \/ n = ODir) as [F|F] by (destruct n; auto; left; discriminate).
      - destruct (appended_file q n O F) as (m & I & D). apply In_app in I. eauto.
      - subst n. destruct (appended_folder q O) as [(m & I & D)|(m & r & I & Nr & D)].
        { apply In_app in I. eauto. }
        destruct (members_at app q) as [|m1 l] eqn:E.
        2:{ assert (In m1 (members_at app q)) as I1 by (rewrite E; now left). apply In_members_at in I1.
            destruct I1 as (I1 & D1). eauto. }
        assert (archive_shows M' q <> None) as NN.
        { rewrite shows_None. intros H. apply In_app in I. apply (H m); [apply in_app_iff; now right|].
          exists r. exact D. }
        destruct (members_at M' q) as [|m2 l2] eqn:E2.
        { destruct (shows_implied M' q E2) as [X|X]; [congruence|exact X]. }
        (* members of the old archive at q: q is a folder there *)
        unfold commit in E2. rewrite members_at_app, E, app_nil_r in E2.
        assert (~ blocked st q) as NB.
        { assert (In m2 (members_at (tar_delete (deletions st) M) q)) as I2 by (rewrite E2; now left).
          apply In_members_at in I2. destruct I2 as (I2 & D2). apply (members_gone M m2 spelled) in I2.
          rewrite D2 in I2. tauto. }
        assert (members_at M' q = members_at M q) as Same.
        { unfold commit. rewrite members_at_app, E, app_nil_r. now apply members_kept. }
        rewrite (shows_same M' M q Same).
        2:{ rewrite Same, <- (members_kept M q spelled NB), E2. discriminate. }
        rewrite <- low by exact N. destruct (clean_folders lower st C q O) as [L|L]; [|exact L].
        exfalso. rewrite low in L by exact N. apply (proj1 (shows_None M q)) with (m := m2) in L.
        + apply L. assert (In m2 (members_at M q)) as J.
          { rewrite <- (members_kept M q spelled NB), E2. now left. }
          apply In_members_at in J. destruct J as (_ & ->). exists []. now rewrite app_nil_r.
        + assert (In m2 (members_at M q)) as J by (rewrite <- (members_kept M q spelled NB), E2; now left).
          apply In_members_at in J. tauto.
    Qed.

    (** Elsewhere the archive shows what it did, or nothing. *)
    Lemma commit_hidden q : q <> [] -> oget (o_fs st) q = None -> visible lower st q = None -> archive_shows M' q = None.
    Proof.
      intros N O V. apply shows_None. intros m I B. unfold commit in I. apply in_app_iff in I. destruct I as [I|I].
      - apply (members_gone M m spelled) in I. destruct I as (I & NB). unfold visible in V.
        destruct (is_deleted st q) eqn:D; [apply NB; exists q; auto|].
        rewrite (oget_None_lookup lower st q N O) in V. destruct (lower q) eqn:L; [discriminate|].
        rewrite low in L by exact N. now apply (proj1 (shows_None M q) L m I).
      - now apply (no_app q N O m I).
    Qed.

    Lemma commit_lower q : q <> [] -> oget (o_fs st) q = None -> visible lower st q <> None ->
      exists n, lower q = Some n /\ visible lower st q = Some (entry_of_lower n) /\
                (archive_shows M' q = Some n \/ archive_shows M' q = None /\ n = LDir /\ members_at M q = []).
    Proof.
      intros N O V. assert (is_deleted st q = false) as D.
      { unfold visible in V. destruct (is_deleted st q); [congruence|reflexivity]. }
      unfold visible in *. rewrite D in *. rewrite (oget_None_lookup lower st q N O) in *.
      destruct (lower q) as [n|] eqn:L; [|now destruct V]. exists n. split; [reflexivity|]. split; [reflexivity|].
      assert (~ blocked st q) as NB.
      { apply (visible_unblocked q (entry_of_lower n) N); [|exact O]. unfold visible. rewrite D.
        rewrite (oget_None_lookup lower st q N O), L. reflexivity. }
      assert (members_at M' q = members_at M q) as Same.
      { unfold commit. rewrite members_at_app, (no_app_members q N O), app_nil_r. now apply members_kept. }
      rewrite low in L by exact N. destruct (members_at M q) as [|m r] eqn:E.
      - destruct (shows_implied M q E) as [X|X]; rewrite X in L; [discriminate|]. injection L as <-.
        destruct (shows_implied M' q Same) as [Y|Y]; auto.
      - left. rewrite (shows_same M' M q); [exact L|congruence|congruence].
    Qed.
  End State.
End Commit.
