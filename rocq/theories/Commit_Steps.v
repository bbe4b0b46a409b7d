(** The calls the kernel passes on keep the overlay clean. *)
From Coq Require Import Ascii String Permutation.
From Verif Require Import PyBase PyDict PyStr Path_Spec Path_Proofs Overlay_Model Overlay_Spec Overlay_Proofs Overlay_Steps
  Overlay_Results Commit_Model Commit_Spec Commit_Proofs.

Section Clean.
  Context {A : Type} (zero : A).
  Notation ostate := (@ostate A).
  Variable lower : location -> option (@lnode A).
  Variable lower_names : location -> list str.
  Hypothesis low : tree_like LDir lower lower_names.
  Implicit Types st : ostate.
  Notation visible := (visible lower).
  Notation union_lookup := (union_lookup lower).

  (** Only the targets change, apart from folders of the archive that are made in the overlay folder above a target. *)
  Definition changes st st1 (T : list location) : Prop :=
    (NoDup (map fst (o_fs st)) -> NoDup (map fst (o_fs st1))) /\
    (forall q, ~ In q T -> oget (o_fs st1) q = oget (o_fs st) q \/
       (oget (o_fs st) q = None /\ oget (o_fs st1) q = Some ODir /\ q <> [] /\ lower q = Some LDir /\
        exists t b, In t T /\ removelast t = q ++ b)) /\
    (forall q, ~ In q T -> is_deleted st1 q = is_deleted st q).

  Lemma changes_refl st T : changes st st T.
  Proof. split; [auto|]. split; auto. Qed.

  Lemma changes_trans st st1 st2 T : changes st st1 T -> changes st1 st2 T -> changes st st2 T.
  Proof.
    intros (N1 & F1 & D1) (N2 & F2 & D2). split; [auto|]. split.
    - intros q H. destruct (F1 q H) as [E1|E1], (F2 q H) as [E2|E2].
      + left; congruence.
      + right. destruct E2 as (E2 & E3 & R). split; [congruence|auto].
      + right. destruct E1 as (E1 & E3 & R). split; [exact E1|]. split; [congruence|exact R].
      + right. destruct E1 as (E1 & _ & R), E2 as (_ & E2 & _). auto.
    - intros q H. rewrite D2, D1; auto.
  Qed.

  Lemma changes_more st st1 T T' : changes st st1 T -> incl T T' -> changes st st1 T'.
  Proof.
    intros (N & F & D) I. split; [exact N|]. split.
    - intros q H. destruct (F q) as [E|(E1 & E2 & E3 & E4 & t & b & It & Eb)]; [intros J; apply H; auto|auto|].
      right. repeat (split; [assumption|]). exists t, b. split; auto.
    - intros q H. apply D. intros J; apply H; auto.
  Qed.

  Lemma makedirs_NoDup todo : forall (fs : list (location * onode)) done fs', makedirs fs done todo = Some fs' ->
    NoDup (map fst fs) -> NoDup (map fst fs').
  Proof.
    induction todo as [|n r IH]; cbn [makedirs]; intros fs done fs' H N; [now injection H as <-|].
    destruct (oget fs (done ++ [n])) as [[]|]; try discriminate; eapply IH; eauto.
    now apply (NoDup_dset loc_eqb loc_eqb_spec).
  Qed.

  Lemma ensure_parent_changes st p r st1 : ensure_parent_exists lower st p = (r, st1) -> changes st st1 [p].
  Proof.
    intros H. pose proof (ensure_parent_facts lower lower_names low st p r st1 H) as (Er & Ei & En & F). split; [|split].
    - unfold ensure_parent_exists in H. destruct (_ && _); [|now injection H as _ <-].
      destruct (makedirs (o_fs st) [] (removelast p)) as [fs|] eqn:M; injection H as _ <-; [|auto].
      cbn [o_fs with_fs]. now apply (makedirs_NoDup _ _ _ _ M).
    - intros q _. destruct (F q) as [E|(E1 & E2 & E3 & E4 & b & E5)]; [auto|]. right.
      repeat (split; [assumption|]). exists p, b. split; [now left|exact E5].
    - intros q _. unfold is_deleted. now rewrite Er.
  Qed.

  Lemma one_entry st st1 p : (NoDup (map fst (o_fs st)) -> NoDup (map fst (o_fs st1))) ->
    (forall q, q <> p -> oget (o_fs st1) q = oget (o_fs st) q) -> o_rows st1 = o_rows st -> changes st st1 [p].
  Proof.
    intros N F R. split; [exact N|]. split.
    - intros q H. left. apply F. intros ->. apply H. now left.
    - intros q _. unfold is_deleted. now rewrite R.
  Qed.

  Lemma os_create_changes st p r st1 : os_create st p = (r, st1) -> changes st st1 [p].
  Proof.
    intros H. assert (o_rows st1 = o_rows st /\ (forall q, q <> p -> oget (o_fs st1) q = oget (o_fs st) q)) as (R & F).
    { destruct (os_create_effect (fun _ _ => (0, 0, 0, 0)%Z) st p r st1 H) as (R & F & _). auto. }
    apply one_entry; auto. unfold os_create in H. destruct (negb _); [now injection H as _ <-|].
    destruct p as [|a p]; [now injection H as _ <-|].
    destruct (oget (o_fs st) (a :: p)) as [[| |]|]; injection H as _ <-; auto.
    cbn [o_fs]. apply (NoDup_dset loc_eqb loc_eqb_spec).
  Qed.

  Lemma os_add_changes st p n r st1 : os_add st p n = (r, st1) -> changes st st1 [p].
  Proof.
    intros H. destruct (os_add_effect st p n r st1 H) as (R & _ & _ & F & _).
    apply one_entry; auto. unfold os_add in H. destruct (negb _); [now injection H as _ <-|].
    destruct (in_overlay st p); injection H as _ <-; auto. cbn [o_fs with_fs]. apply (NoDup_dset loc_eqb loc_eqb_spec).
  Qed.

  Lemma os_unlink_changes st p r st1 : os_unlink st p = (r, st1) -> changes st st1 [p].
  Proof.
    intros H. destruct (os_unlink_effect st p r st1 H) as (R & _ & _ & F & _).
    apply one_entry; auto. unfold os_unlink in H. destruct p as [|a p]; [now injection H as _ <-|].
    destruct (oget (o_fs st) (a :: p)) as [[| |]|]; injection H as _ <-; auto; cbn [o_fs with_fs]; apply NoDup_keys_filter.
  Qed.

  Lemma os_rmdir_changes st p r st1 : os_rmdir st p = (r, st1) -> changes st st1 [p].
  Proof.
    intros H. destruct (os_rmdir_effect st p r st1 H) as (R & _ & _ & F & _).
    apply one_entry; auto. unfold os_rmdir in H.
    destruct (oget (o_fs st) p) as [[| |]|]; try (injection H as _ <-; auto).
    destruct (overlay_names (o_fs st) p); injection H as _ <-; auto; cbn [o_fs with_fs]; apply NoDup_keys_filter.
  Qed.

  Lemma set_ino_changes st i c T : changes st (set_ino st i c) T.
  Proof. split; [auto|]. split; auto. Qed.

  Lemma copy_to_changes st s t r st1 : copy_to lower st s t = (r, st1) -> changes st st1 [t].
  Proof.
    unfold copy_to. destruct (union_open lower st s) as [o|]; [|injection 1 as _ <-; apply changes_refl].
    destruct (os_create st t) as [[i|e] st2] eqn:C; injection 1 as _ <-; apply os_create_changes in C; [|exact C].
    eapply changes_trans; [exact C|apply set_ino_changes].
  Qed.

  Lemma rows_changes st rs T : (forall q, ~ In q T -> is_deleted (with_rows st rs) q = is_deleted st q) ->
    changes st (with_rows st rs) T.
  Proof. intros H. split; [auto|]. split; auto. Qed.

  Lemma deleted_rset st p r q : is_deleted (with_rows st (rset (o_rows st) p r)) q =
    if loc_eqb q p then r_deleted r else is_deleted st q.
  Proof. unfold is_deleted; cbn [o_rows with_rows]. rewrite rget_rset. now destruct (loc_eqb q p). Qed.

  Lemma deleted_rdel st p q : is_deleted (with_rows st (rdel (o_rows st) p)) q =
    if loc_eqb q p then false else is_deleted st q.
  Proof. unfold is_deleted; cbn [o_rows with_rows]. rewrite rget_rdel. now destruct (loc_eqb q p). Qed.

  Lemma rset_changes st p r : changes st (with_rows st (rset (o_rows st) p r)) [p].
  Proof.
    apply rows_changes. intros q H. rewrite deleted_rset. destruct (loc_eqb_spec q p) as [->|]; [|reflexivity].
    destruct H; now left.
  Qed.

  Lemma rdel_changes st p : changes st (with_rows st (rdel (o_rows st) p)) [p].
  Proof.
    apply rows_changes. intros q H. rewrite deleted_rdel. destruct (loc_eqb_spec q p) as [->|]; [|reflexivity].
    destruct H; now left.
  Qed.

  Lemma mark_changes st p : changes st (mark_as_deleted lower st p) [p].
  Proof. unfold mark_as_deleted. destruct (union_exists lower st p); [apply rset_changes|apply rdel_changes]. Qed.

  Lemma open_row_changes st p m r st1 : open_row lower st p m = (r, st1) -> changes st st1 [p].
  Proof.
    unfold open_row. destruct (ensure_parent_exists lower st p) as [[[]|e] st2] eqn:E; injection 1 as _ <-;
      apply ensure_parent_changes in E; [|exact E].
    eapply changes_trans; [exact E|apply rset_changes].
  Qed.

  Lemma modifiable_changes st p r st1 : ensure_file_is_modifiable lower st p = (r, st1) -> changes st st1 [p].
  Proof.
    unfold ensure_file_is_modifiable. destruct (ensure_parent_exists lower st p) as [[[]|e] st2] eqn:E; intros H;
      apply ensure_parent_changes in E; [|now injection H as _ <-].
    eapply changes_trans; [exact E|]. now apply copy_to_changes in H.
  Qed.

  (** ** The invariant *)

  Lemma removelast_snoc (p : location) n : removelast (p ++ [n]) = p.
  Proof. apply removelast_last. Qed.

  Lemma Forall_prefix (p q : location) : Forall proper_name (p ++ q) -> Forall proper_name p.
  Proof. intros H. apply Forall_app in H. tauto. Qed.

  Lemma Forall_removelast (p : location) : Forall proper_name p -> Forall proper_name (removelast p).
  Proof.
    intros H. destruct p as [|a p]; [exact H|]. rewrite (app_removelast_last (l := a :: p) []) in H by discriminate.
    now apply Forall_prefix in H.
  Qed.

  (** What is asked of each target of a change. *)
  Definition target_ok st st1 (T : list location) (t : location) : Prop :=
    name_ok t /\ ~ In (removelast t) T /\ in_folder lower st t /\
    (forall n, visible st (t ++ [n]) = None /\ ~ In (t ++ [n]) T) /\
    (is_deleted st1 t = true -> oget (o_fs st1) t = None) /\
    (oget (o_fs st1) t = Some ODir -> lower t = None \/ lower t = Some LDir).

  Lemma clean_changes st st1 T : clean lower st -> changes st st1 T -> (forall t, In t T -> target_ok st st1 T t) ->
    clean lower st1.
  Proof.
    intros C (N & F & D) TT.
    (* folders made above a target are shown *)
    assert (forall q t b, q <> [] -> In t T -> removelast t = q ++ b -> visible st q = Some EDir) as Above.
    { intros q t b Nq It Eb. destruct (TT t It) as (_ & _ & IF & _). unfold in_folder in IF. rewrite Eb in IF.
      destruct IF as [X|X]; [destruct q; [congruence|discriminate]|].
      destruct b as [|x b]; [now rewrite app_nil_r in X|].
      apply (shown_above lower st C q (x :: b)); [congruence|discriminate|exact Nq]. }
    (* outside of the targets, the same paths are shown, and the same ones as folders *)
    assert (forall q, ~ In q T -> (visible st1 q = None <-> visible st q = None) /\
                                 (visible st1 q = Some EDir <-> visible st q = Some EDir)) as Kind.
    { intros q Hq. destruct q as [|a q].
      - unfold Overlay_Model.visible. rewrite (D [] Hq). destruct (is_deleted st []); cbn; tauto.
      - destruct (F (a :: q) Hq) as [E|(E1 & E2 & E3 & E4 & t & b & It & Eb)].
        + unfold Overlay_Model.visible, Overlay_Model.union_lookup. rewrite (D _ Hq), E.
          destruct (is_deleted st (a :: q)); [tauto|].
          destruct (oget (o_fs st) (a :: q)) as [[| |]|]; cbn [entry_of_overlay]; split; split; congruence.
        + pose proof (Above _ t b E3 It Eb) as V.
          assert (visible st1 (a :: q) = Some EDir) as V1.
          { unfold Overlay_Model.visible in *. rewrite (D _ Hq). destruct (is_deleted st (a :: q)); [discriminate|].
            now rewrite (oget_Some_lookup lower st1 (a :: q) ODir E3 E2). }
          rewrite V, V1. split; split; congruence. }
    assert (forall q, In q T \/ ~ In q T) as Dec.
    { intros q. destruct (in_dec (list_eq_dec (list_eq_dec ascii_dec)) q T); auto. }
    constructor.
    - apply N, (clean_fs lower st C).
    - intros p Hp. destruct (Dec p) as [I|I]; [now destruct (TT p I)|].
      destruct (F p I) as [E|(E1 & E2 & E3 & E4 & t & b & It & Eb)].
      + apply (clean_names lower st C). congruence.
      + split; [exact E3|]. destruct (TT t It) as ((_ & P) & _). apply Forall_removelast in P. rewrite Eb in P.
        now apply Forall_prefix in P.
    - intros p Hp. destruct (Dec p) as [I|I]; [now destruct (TT p I)|].
      apply (clean_deleted_names lower st C). now rewrite <- D.
    - intros p Hp. destruct (Dec p) as [I|I]; [now destruct (TT p I) as (_ & _ & _ & _ & H & _); apply H|].
      rewrite D in Hp by exact I. destruct (F p I) as [E|(E1 & E2 & E3 & E4 & t & b & It & Eb)].
      + rewrite E. now apply (clean_deleted lower st C).
      + exfalso. pose proof (Above _ t b E3 It Eb) as V. unfold Overlay_Model.visible in V. rewrite Hp in V. discriminate.
    - intros p n V. destruct (Dec (p ++ [n])) as [I|I].
      + destruct (TT _ I) as (_ & NI & IF & _). rewrite removelast_snoc in NI. unfold in_folder in IF.
        rewrite removelast_snoc in IF. destruct IF as [IF|IF]; [auto|]. right. now apply Kind.
      + assert (visible st (p ++ [n]) <> None) as V0 by (intros X; apply V, Kind; auto).
        destruct (Dec p) as [J|J].
        { destruct (TT p J) as (_ & _ & _ & Ch & _). now destruct (Ch n). }
        destruct (clean_tree lower st C p n V0) as [X|X]; [auto|]. right. now apply Kind.
    - intros p O. destruct (Dec p) as [I|I]; [destruct (TT p I) as (_ & _ & _ & _ & _ & H); auto|].
      destruct (F p I) as [E|(E1 & E2 & E3 & E4 & t & b & It & Eb)]; [|auto].
      apply (clean_folders lower st C). congruence.
  Qed.

  Lemma same_fs_clean st st1 : clean lower st -> o_fs st1 = o_fs st -> o_rows st1 = o_rows st -> clean lower st1.
  Proof.
    intros C F R. apply (clean_changes st st1 []); [exact C| |intros t []]. split; [now rewrite F|]. split.
    - intros q _. left. now rewrite F.
    - intros q _. unfold is_deleted. now rewrite R.
  Qed.

  Lemma snoc_neq (p : location) n : p ++ [n] <> p.
  Proof. intros H. apply (f_equal (@length str)) in H. rewrite app_length in H. cbn in H. lia. Qed.

  Lemma removelast_neq (p : location) : p <> [] -> removelast p <> p.
  Proof. intros N H. destruct (exists_last N) as (q & n & ->). rewrite removelast_snoc in H. symmetry in H. now apply snoc_neq in H. Qed.

  (** The usual case: one target. *)
  Lemma clean_one st st1 p : clean lower st -> changes st st1 [p] -> name_ok p -> in_folder lower st p ->
    (forall n, visible st (p ++ [n]) = None) ->
    (is_deleted st1 p = true -> oget (o_fs st1) p = None) ->
    (oget (o_fs st1) p = Some ODir -> lower p = None \/ lower p = Some LDir) ->
    clean lower st1.
  Proof.
    intros C H N I Ch D O. apply (clean_changes st st1 [p]); auto. intros t [<-|[]].
    split; [exact N|]. split; [intros [X|[]]; symmetry in X; revert X; apply removelast_neq, N|]. split; [exact I|].
    split; [|auto]. intros n; split; [apply Ch|]. intros [X|[]]. symmetry in X. now apply snoc_neq in X.
  Qed.

  Lemma no_children st p : clean lower st -> p <> [] -> visible st p <> Some EDir -> forall n, visible st (p ++ [n]) = None.
  Proof.
    intros C N V n. destruct (visible st (p ++ [n])) eqn:E; [|reflexivity]. exfalso.
    destruct (clean_tree lower st C p n) as [X|X]; congruence.
  Qed.

  Lemma shown_in_folder st p : clean lower st -> p <> [] -> visible st p <> None -> in_folder lower st p.
  Proof.
    intros C N V. destruct (exists_last N) as (q & n & ->). unfold in_folder. rewrite removelast_snoc.
    now apply (clean_tree lower st C q n).
  Qed.

  (** The overlay entry of a shown file is not a folder. *)
  Lemma shown_file st p e : p <> [] -> visible st p = Some e -> e <> EDir -> oget (o_fs st) p <> Some ODir.
  Proof.
    intros N V E O. unfold Overlay_Model.visible in V. destruct (is_deleted st p); [discriminate|].
    rewrite (oget_Some_lookup lower st p ODir N O) in V. cbn in V. congruence.
  Qed.

  Lemma shown_marked st p e : visible st p = Some e -> is_deleted st p = false.
  Proof. unfold Overlay_Model.visible. now destruct (is_deleted st p). Qed.

  Lemma hidden_free st p : clean lower st -> p <> [] -> visible st p = None -> oget (o_fs st) p = None.
  Proof.
    intros C N V. destruct (oget (o_fs st) p) as [n|] eqn:O; [|reflexivity]. exfalso.
    unfold Overlay_Model.visible in V. destruct (is_deleted st p) eqn:D.
    - apply (clean_deleted lower st C) in D. congruence.
    - rewrite (oget_Some_lookup lower st p n N O) in V. discriminate.
  Qed.

  Lemma create_clean st p m r st1 : well_kept st -> clean lower st -> name_ok p -> in_folder lower st p ->
    visible st p = None -> create lower st p m = (r, st1) -> clean lower st1.
  Proof.
    intros W C N I V H. assert (oget (o_fs st) p = None) as O by (now apply hidden_free; [|apply N|]).
    unfold create in H. destruct (open_row lower st p m) as [[[]|e] st2] eqn:R.
    - destruct (open_row_effect lower lower_names low st p m _ _ R W) as (_ & _ & _ & _ & _ & Op & _ & Del & _).
      pose proof (os_create_changes _ _ _ _ H) as H2. apply open_row_changes in R.
      destruct (os_create_effect (fun _ _ => (0, 0, 0, 0)%Z) _ _ _ _ H) as (Rows & _ & _ & Good & Bad).
      apply (clean_one st st1 p C); auto.
      + eapply changes_trans; eauto.
      + apply no_children; [exact C|apply N|congruence].
      + unfold is_deleted. rewrite Rows. fold (is_deleted st2 p). rewrite Del by reflexivity. discriminate.
      + intros X. exfalso. destruct r as [i|e]; [destruct (Good i eq_refl) as (_ & Y & _); congruence|].
        rewrite (Bad e eq_refl), Op in X. congruence.
    - injection H as _ <-.
      destruct (open_row_effect lower lower_names low st p m _ _ R W) as (_ & _ & _ & _ & _ & Op & _ & _ & Bad).
      apply open_row_changes in R. apply (clean_one st st2 p C); auto.
      + apply no_children; [exact C|apply N|congruence].
      + intros _. now rewrite Op.
      + rewrite Op, O. discriminate.
  Qed.

  Lemma mkdir_clean st p m r st1 : well_kept st -> clean lower st -> name_ok p -> in_folder lower st p ->
    visible st p = None -> lower p = None \/ lower p = Some LDir -> mkdir lower st p m = (r, st1) -> clean lower st1.
  Proof.
    intros W C N I V L H. assert (oget (o_fs st) p = None) as O by (now apply hidden_free; [|apply N|]).
    unfold mkdir in H. destruct (open_row lower st p m) as [[[]|e] st2] eqn:R.
    - destruct (open_row_effect lower lower_names low st p m _ _ R W) as (_ & _ & _ & _ & _ & Op & _ & Del & _).
      pose proof (os_add_changes _ _ _ _ _ H) as H2. apply open_row_changes in R.
      destruct (os_add_effect _ _ _ _ _ H) as (Rows & _).
      apply (clean_one st st1 p C); auto.
      + eapply changes_trans; eauto.
      + apply no_children; [exact C|apply N|congruence].
      + unfold is_deleted. rewrite Rows. fold (is_deleted st2 p). rewrite Del by reflexivity. discriminate.
    - injection H as _ <-.
      destruct (open_row_effect lower lower_names low st p m _ _ R W) as (_ & _ & _ & _ & _ & Op & _ & _ & Bad).
      apply open_row_changes in R. apply (clean_one st st2 p C); auto.
      + apply no_children; [exact C|apply N|congruence].
      + intros _. now rewrite Op.
  Qed.

  (** Adding an entry under a free name that is not marked as deleted. *)
  Lemma add_clean st st0 p n r st1 : clean lower st -> changes st st0 [p] -> is_deleted st0 p = false ->
    oget (o_fs st0) p = None -> name_ok p -> in_folder lower st p ->
    visible st p = None -> n <> ODir -> os_add st0 p n = (r, st1) -> clean lower st1.
  Proof.
    intros C H0 D O N I V Nn H. pose proof (os_add_changes _ _ _ _ _ H) as H1.
    destruct (os_add_effect _ _ _ _ _ H) as (Rows & _ & _ & _ & Good & Bad).
    apply (clean_one st st1 p C); auto.
    - eapply changes_trans; eauto.
    - apply no_children; [exact C|apply N|congruence].
    - unfold is_deleted. rewrite Rows. fold (is_deleted st0 p). rewrite D. discriminate.
    - intros X. exfalso. destruct r as [[]|e]; [destruct (Good eq_refl) as (_ & Y & _); congruence|].
      rewrite (Bad e eq_refl) in X. congruence.
  Qed.

  Lemma mknod_clean st p r st1 : well_kept st -> clean lower st -> name_ok p -> in_folder lower st p ->
    visible st p = None -> is_deleted st p = false -> mknod lower st p = (r, st1) -> clean lower st1.
  Proof.
    intros W C N I V D H. assert (oget (o_fs st) p = None) as O by (now apply hidden_free; [|apply N|]).
    unfold mknod in H. destruct (ensure_parent_exists lower st p) as [[[]|e] st2] eqn:R.
    - pose proof (ensure_parent_self lower lower_names low _ _ _ _ R) as Self.
      pose proof (ensure_parent_deleted lower lower_names low _ _ _ _ p R) as Del.
      apply ensure_parent_changes in R.
      destruct (os_add st2 p (OFile (o_next st2))) as [rs st3] eqn:S.
      assert (clean lower st3) as C3.
      { apply (add_clean st st2 p _ _ _ C R) in S; auto; congruence. }
      destruct rs as [[]|e]; injection H as _ <-; [|exact C3]. now apply (same_fs_clean st3).
    - injection H as _ <-. pose proof (ensure_parent_self lower lower_names low _ _ _ _ R) as Self.
      apply ensure_parent_changes in R.
      apply (clean_one st st2 p C); auto.
      + apply no_children; [exact C|apply N|congruence].
      + intros _. congruence.
      + congruence.
  Qed.

  Lemma link_clean st p s r st1 : clean lower st -> name_ok p -> in_folder lower st p ->
    visible st p = None -> is_deleted st p = false -> link lower st p s = (r, st1) -> clean lower st1.
  Proof.
    intros C N I V D H. assert (oget (o_fs st) p = None) as O by (now apply hidden_free; [|apply N|]).
    unfold link in H. destruct (_ && _); [now injection H as _ <-|].
    destruct (match s with [] => Some ODir | _ => oget (o_fs st) s end) as [[|i|t]|]; try (now injection H as _ <-).
    - apply (add_clean st st p _ _ _ C (changes_refl st [p])) in H; auto; discriminate.
    - apply (add_clean st st p _ _ _ C (changes_refl st [p])) in H; auto; discriminate.
  Qed.

  Lemma mark_oget st p q : oget (o_fs (mark_as_deleted lower st p)) q = oget (o_fs st) q.
  Proof. now destruct (mark_effect lower st p) as (-> & _). Qed.

  Lemma in_overlay_true st p : p <> [] -> in_overlay st p = true -> exists n, oget (o_fs st) p = Some n.
  Proof. unfold in_overlay. destruct p; [congruence|]. destruct (oget (o_fs st) (l :: p)); eauto; discriminate. Qed.

  Lemma unlink_clean st p r st1 e : clean lower st -> name_ok p -> visible st p = Some e -> e <> EDir ->
    unlink lower st p = (r, st1) -> clean lower st1.
  Proof.
    intros C N V E H. pose proof (shown_file st p e (proj1 N) V E) as O.
    unfold unlink in H. destruct (negb (union_exists lower st p) || is_deleted st p) eqn:X.
    - exfalso. rewrite (shown_marked st p e V), orb_false_r in X. unfold Overlay_Model.visible in V.
      destruct (is_deleted st p); [discriminate|]. unfold union_exists in X. now rewrite V in X.
    - destruct (if in_overlay st p then os_unlink st p else (Ok tt, st)) as [r2 st2] eqn:U. injection H as _ <-.
      assert (changes st st2 [p] /\ oget (o_fs st2) p = None) as (H2 & Gone).
      { destruct (in_overlay st p) eqn:IO.
        - split; [now apply os_unlink_changes in U|]. destruct (in_overlay_true st p (proj1 N) IO) as (n & En).
          unfold os_unlink in U. destruct p as [|a p]; [now destruct N|]. rewrite En in U.
          destruct n; [congruence| |]; injection U as _ <-; cbn [o_fs with_fs]; now rewrite oget_odel, loc_eqb_refl.
        - injection U as _ <-. split; [apply changes_refl|]. now destruct (in_overlay_false st p IO). }
      apply (clean_one st _ p C); auto.
      + eapply changes_trans; [exact H2|apply mark_changes].
      + apply shown_in_folder; auto; [apply N|congruence].
      + apply no_children; [exact C|apply N|congruence].
      + now rewrite mark_oget.
      + rewrite mark_oget, Gone. discriminate.
  Qed.

  Lemma rmdir_checked st p : well_kept st -> subset (union_names lower_names st p) (list_deleted st p) = true ->
    forall n, is_deleted st (p ++ [n]) = true \/ union_lookup st (p ++ [n]) = None.
  Proof.
    intros W S n. destruct (is_deleted st (p ++ [n])) eqn:D; [auto|]. right.
    destruct (union_lookup st (p ++ [n])) eqn:U; [|reflexivity]. exfalso.
    unfold subset in S. rewrite forallb_forall in S.
    assert (In n (union_names lower_names st p)) as I by (apply (In_union_names lower lower_names low); congruence).
    specialize (S n I). apply existsb_exists in S as (x & Ix & E). apply str_eqb_eq in E; subst x.
    apply (In_list_deleted st p n (proj1 (proj2 W))) in Ix. congruence.
  Qed.

  Lemma rmdir_clean st p r st1 : well_kept st -> clean lower st -> name_ok p -> visible st p = Some EDir ->
    rmdir lower lower_names st p = (r, st1) -> clean lower st1.
  Proof.
    intros W C N V H. unfold rmdir in H.
    destruct (negb (union_exists lower st p) || is_deleted st p); [now injection H as _ <-|].
    destruct (subset (union_names lower_names st p) (list_deleted st p)) eqn:S; [|now injection H as _ <-].
    cbn [negb] in H. pose proof (rmdir_checked st p W S) as Empty.
    destruct (if in_overlay st p then os_rmdir st p else (Ok tt, st)) as [r2 st2] eqn:U. injection H as _ <-.
    assert (changes st st2 [p] /\ oget (o_fs st2) p = None) as (H2 & Gone).
    { destruct (in_overlay st p) eqn:IO.
      - split; [now apply os_rmdir_changes in U|]. destruct (in_overlay_true st p (proj1 N) IO) as (n & En).
        assert (n = ODir) as ->.
        { unfold Overlay_Model.visible in V. destruct (is_deleted st p); [discriminate|].
          rewrite (oget_Some_lookup lower st p n (proj1 N) En) in V. now destruct n. }
        unfold os_rmdir in U. rewrite En in U. destruct (overlay_names (o_fs st) p) as [|x l] eqn:ON.
        + injection U as _ <-; cbn [o_fs with_fs]. now rewrite oget_odel, loc_eqb_refl.
        + exfalso. assert (In x (overlay_names (o_fs st) p)) as Ix by (rewrite ON; now left).
          apply In_overlay_names in Ix. destruct (Empty x) as [X|X].
          * apply (clean_deleted lower st C) in X. congruence.
          * destruct (oget (o_fs st) (p ++ [x])) as [n|] eqn:G; [|congruence].
            rewrite (oget_Some_lookup lower st _ n (snoc_nonempty p x) G) in X. discriminate.
      - injection U as _ <-. split; [apply changes_refl|]. now destruct (in_overlay_false st p IO). }
    apply (clean_one st _ p C); auto.
    - eapply changes_trans; [exact H2|apply mark_changes].
    - apply shown_in_folder; auto; [apply N|congruence].
    - intros n. unfold Overlay_Model.visible. destruct (Empty n) as [->|X]; [reflexivity|].
      destruct (is_deleted st (p ++ [n])); [reflexivity|exact X].
    - now rewrite mark_oget.
    - rewrite mark_oget, Gone. discriminate.
  Qed.

  (** Making a copy of a shown file. *)
  Lemma modifiable_clean st p c r st1 : well_kept st -> clean lower st -> name_ok p -> visible st p = Some (EFile c) ->
    ensure_file_is_modifiable lower st p = (r, st1) -> clean lower st1 /\ o_rows st1 = o_rows st.
  Proof.
    intros W C N V H.
    assert (o_rows st1 = o_rows st) as Rows.
    { apply (modifiable_rows lower lower_names (fun _ _ => (0, 0, 0, 0)%Z) low _ _ _ _ H W). }
    split; [|exact Rows].
    assert (oget (o_fs st) p <> Some ODir) as O by (now apply (shown_file st p (EFile c)); [apply N| |]).
    pose proof (modifiable_changes _ _ _ _ H) as H1.
    apply (clean_one st st1 p C); auto.
    - apply shown_in_folder; auto; [apply N|congruence].
    - apply no_children; [exact C|apply N|congruence].
    - unfold is_deleted. rewrite Rows. fold (is_deleted st p). rewrite (shown_marked st p _ V). discriminate.
    - intros X. exfalso. unfold ensure_file_is_modifiable in H.
      destruct (ensure_parent_exists lower st p) as [[[]|e] st2] eqn:R;
        pose proof (ensure_parent_self lower lower_names low _ _ _ _ R) as Self.
      + pose proof (ensure_parent_kept lower lower_names low _ _ _ _ R W) as W2.
        destruct (copy_to_effect lower (fun _ _ => (0, 0, 0, 0)%Z) _ _ _ _ _ H W2) as (_ & _ & _ & Good & Bad).
        destruct r as [[]|e]; [destruct (Good eq_refl) as (_ & _ & o & i & _ & Y & _); congruence|].
        rewrite (Bad e eq_refl) in X. congruence.
      + injection H as _ <-. congruence.
  Qed.

  Lemma truncate_clean st p n c r st1 : well_kept st -> clean lower st -> name_ok p -> visible st p = Some (EFile c) ->
    truncate zero lower st p n = (r, st1) -> clean lower st1.
  Proof.
    intros W C N V H. unfold truncate in H. destruct (ensure_file_is_modifiable lower st p) as [[[]|e] st2] eqn:R;
      destruct (modifiable_clean st p c _ _ W C N V R) as (C2 & _); [|now injection H as _ <-].
    unfold os_truncate in H. destruct (oget (o_fs st2) p) as [[| |]|]; injection H as _ <-; auto. now apply (same_fs_clean st2).
  Qed.

  Lemma open_clean st p c r st1 : well_kept st -> clean lower st -> name_ok p -> visible st p = Some (EFile c) ->
    open_overlay lower st p true = (r, st1) -> clean lower st1.
  Proof.
    intros W C N V H. unfold open_overlay in H.
    destruct (if in_overlay st p then (Ok tt, st) else
              if negb (union_exists lower st p) then (Err ENOENT, st) else ensure_file_is_modifiable lower st p)
      as [r2 st2] eqn:R.
    assert (clean lower st2) as C2.
    { destruct (in_overlay st p); [now injection R as _ <-|]. destruct (negb _); [now injection R as _ <-|].
      now apply (modifiable_clean st p c _ _ W C N V) in R. }
    destruct r2 as [[]|e]; [|now injection H as _ <-]. destruct p as [|a p]; [now injection H as _ <-|].
    destruct (oget (o_fs st2) (a :: p)) as [[| |]|]; now injection H as _ <-.
  Qed.

  Variable attributes : ostate -> location -> Z * Z * Z * Z.

  Lemma attributes_clean st p c r st1 : clean lower st ->
    set_attributes lower attributes st p c = (r, st1) -> clean lower st1.
  Proof.
    intros C H. unfold set_attributes in H. destruct (row_for lower attributes st p) as [rw|e] eqn:R; [|now injection H as _ <-].
    pose proof (row_for_deleted lower attributes st p rw R) as D.
    assert (forall rw', r_deleted rw' = r_deleted rw -> clean lower (with_rows st (rset (o_rows st) p rw'))) as Keep.
    { intros rw' E. apply (clean_changes st _ []); [exact C| |intros t []]. apply rows_changes. intros q _.
      rewrite deleted_rset. destruct (loc_eqb_spec q p) as [->|]; congruence. }
    destruct c as [m|u g|t].
    - injection H as _ <-. now apply Keep.
    - destruct u, g; injection H as _ <-; now apply Keep.
    - injection H as _ <-. now apply Keep.
  Qed.

  Lemma os_rename_file st old new n r st1 : os_rename st old new = (r, st1) -> oget (o_fs st) old = Some n -> n <> ODir ->
    changes st st1 [old; new] /\ o_rows st1 = o_rows st /\
    (oget (o_fs st1) old = oget (o_fs st) old \/ oget (o_fs st1) old = None \/ old = new) /\
    (oget (o_fs st1) new = oget (o_fs st) new \/ oget (o_fs st1) new = Some n).
  Proof.
    intros H E D. unfold os_rename in H.
    assert (st1 = st -> changes st st1 [old; new] /\ o_rows st1 = o_rows st /\
      (oget (o_fs st1) old = oget (o_fs st) old \/ oget (o_fs st1) old = None \/ old = new) /\
      (oget (o_fs st1) new = oget (o_fs st) new \/ oget (o_fs st1) new = Some n)) as Same.
    { intros ->. split; [apply changes_refl|]. auto. }
    destruct (_ || _); [apply Same; now injection H|]. rewrite E in H.
    destruct (negb _); [apply Same; now injection H|].
    destruct (loc_eqb_spec old new) as [->|N]; [apply Same; now injection H|].
    assert (st1 = st \/ st1 = with_fs st (oset (odel (odel (o_fs st) old) new) new n)) as [X|X].
    { destruct n; [congruence| |]; destruct (oget (o_fs st) new) as [[| |]|]; injection H as _ <-; auto. }
    - now apply Same.
    - subst st1. split; [|split; [reflexivity|split]].
      + split; [|split; [|auto]].
        * cbn [o_fs with_fs]. intros ND. apply (NoDup_dset loc_eqb loc_eqb_spec). now do 2 apply NoDup_keys_filter.
        * intros q Hq. left. cbn [o_fs with_fs]. rewrite oget_oset, !oget_odel.
          destruct (loc_eqb_spec q new) as [->|]; [destruct Hq; right; now left|].
          destruct (loc_eqb_spec q old) as [->|]; [destruct Hq; now left|reflexivity].
      + right; left. cbn [o_fs with_fs]. rewrite oget_oset, !oget_odel, (loc_eqb_neq old new N), loc_eqb_refl. reflexivity.
      + right. cbn [o_fs with_fs]. now rewrite oget_oset, loc_eqb_refl.
  Qed.

  Lemma rename_clean st old new e r st1 : well_kept st -> clean lower st -> name_ok old -> name_ok new -> old <> new ->
    visible st old = Some e -> e <> EDir -> visible st new <> Some EDir -> in_folder lower st new ->
    rename lower attributes st old new = (r, st1) -> clean lower st1.
  Proof.
    intros W C No Nn Neq V E Vn IF H. pose proof (shown_marked st old e V) as Dold.
    pose proof (shown_file st old e (proj1 No) V E) as Oold.
    assert (oget (o_fs st) new <> Some ODir) as Onew.
    { intros X. destruct (visible st new) as [e'|] eqn:V'.
      - apply (shown_file st new e' (proj1 Nn) V'); [congruence|exact X].
      - apply (hidden_free st new C (proj1 Nn)) in V'. congruence. }
    unfold rename in H. rewrite Dold, orb_false_r in H.
    destruct (negb (union_exists lower st old)); [now injection H as _ <-|].
    set (sa := with_rows st (rdel (o_rows st) new)) in *.
    assert (changes st sa [old; new]) as Ha.
    { apply (changes_more st sa [new]); [apply rdel_changes|]. intros x [<-|[]]. right; now left. }
    assert (forall s, changes st s [old; new] -> (is_deleted s old = true -> oget (o_fs s) old = None) ->
                      (is_deleted s new = true -> oget (o_fs s) new = None) ->
                      oget (o_fs s) old <> Some ODir -> oget (o_fs s) new <> Some ODir -> clean lower s) as Fin.
    { intros s Hs D1 D2 O1 O2. apply (clean_changes st s [old; new] C Hs).
      assert (in_folder lower st old) as IFo by (apply shown_in_folder; auto; [apply No|congruence]).
      assert (removelast old <> new) as R1.
      { intros X. unfold in_folder in IFo. rewrite X in IFo. destruct IFo as [Y|Y]; [now destruct Nn|congruence]. }
      assert (removelast new <> old) as R2.
      { intros X. unfold in_folder in IF. rewrite X in IF. destruct IF as [Y|Y]; [now destruct No|congruence]. }
      intros t [<-|[<-|[]]]; (split; [assumption|]); (split; [|split; [assumption|split; [|split; [assumption|congruence]]]]).
      - intros [X|[X|[]]]; [symmetry in X; revert X; apply removelast_neq, No|congruence].
      - intros n. split; [apply no_children; [exact C|apply No|congruence]|]. intros [X|[X|[]]].
        + symmetry in X. now apply snoc_neq in X.
        + apply R2. now rewrite X, removelast_snoc.
      - intros [X|[X|[]]]; [congruence|symmetry in X; revert X; apply removelast_neq, Nn].
      - intros n. split; [apply no_children; [exact C|apply Nn|congruence]|]. intros [X|[X|[]]].
        + apply R1. now rewrite X, removelast_snoc.
        + symmetry in X. now apply snoc_neq in X. }
    destruct (row_for lower attributes sa old) as [rw|er] eqn:RF.
    2:{ injection H as _ <-. apply Fin; auto; intros X; unfold sa in X; rewrite deleted_rdel in X.
        - rewrite (loc_eqb_neq old new Neq) in X. congruence.
        - rewrite loc_eqb_refl in X. discriminate. }
    pose proof (row_for_deleted lower attributes sa old rw RF) as Drw.
    assert (r_deleted rw = false) as Drw0.
    { rewrite Drw. unfold sa. rewrite deleted_rdel, (loc_eqb_neq old new Neq). exact Dold. }
    set (sb := with_rows sa (rset (rdel (o_rows sa) old) new rw)) in *.
    assert (changes sa sb [old; new]) as Hb.
    { apply rows_changes. intros q Hq. unfold is_deleted; cbn [o_rows with_rows]. rewrite rget_rset, rget_rdel.
      destruct (loc_eqb_spec q new) as [->|]; [destruct Hq; right; now left|].
      destruct (loc_eqb_spec q old) as [->|]; [destruct Hq; now left|reflexivity]. }
    assert (is_deleted sb new = false) as Dn.
    { unfold is_deleted, sb; cbn [o_rows with_rows]. now rewrite rget_rset, loc_eqb_refl. }
    assert (is_deleted sb old = false) as Do.
    { unfold is_deleted, sb; cbn [o_rows with_rows]. now rewrite rget_rset, rget_rdel, (loc_eqb_neq old new Neq), loc_eqb_refl. }
    pose proof (changes_trans _ _ _ _ Ha Hb) as Hab.
    assert (well_kept sb) as Wb.
    { apply rows_kept; [apply rows_kept; [exact W|]|]; repeat (apply NoDup_rset || apply NoDup_rdel); apply W. }
    destruct (ensure_parent_exists lower sb new) as [rp sc] eqn:EP.
    pose proof (ensure_parent_changes _ _ _ _ EP) as Hc.
    pose proof (ensure_parent_facts lower lower_names low _ _ _ _ EP) as (Rc & _ & _ & Fc).
    pose proof (ensure_parent_kept lower lower_names low _ _ _ _ EP Wb) as Wc.
    assert (changes st sc [old; new]) as Hac.
    { apply (changes_trans _ _ _ _ Hab). apply (changes_more _ _ [new]); [exact Hc|]. intros x [<-|[]]; right; now left. }
    assert (is_deleted sc new = false /\ is_deleted sc old = false) as (Dcn & Dco).
    { unfold is_deleted. rewrite Rc. split; assumption. }
    assert (oget (o_fs sc) new <> Some ODir) as Ocn.
    { rewrite (ensure_parent_self lower lower_names low _ _ _ _ EP). exact Onew. }
    assert (oget (o_fs sc) old = oget (o_fs st) old) as Oco.
    { destruct (Fc old) as [X|(X1 & X2 & X3 & X4 & _)]; [exact X|]. exfalso.
      change (o_fs sb) with (o_fs st) in X1. unfold Overlay_Model.visible in V. rewrite Dold in V.
      rewrite (oget_None_lookup lower st old (proj1 No) X1), X4 in V. cbn in V. congruence. }
    destruct rp as [[]|ep].
    2:{ injection H as _ <-. apply Fin; auto; congruence. }
    destruct (in_overlay sc old) eqn:IO.
    - destruct (in_overlay_true sc old (proj1 No) IO) as (n & En).
      assert (n <> ODir) as Nd by congruence.
      destruct (os_rename_file _ _ _ n _ _ H En Nd) as (Hd & Rd & F1 & F2).
      apply Fin.
      + eapply changes_trans; eauto.
      + unfold is_deleted. rewrite Rd. fold (is_deleted sc old). congruence.
      + unfold is_deleted. rewrite Rd. fold (is_deleted sc new). congruence.
      + destruct F1 as [F1|[F1|F1]]; congruence.
      + destruct F2 as [F2|F2]; congruence.
    - destruct (in_overlay_false sc old IO) as (_ & Eo).
      destruct (copy_to lower sc old new) as [rc sd] eqn:CP.
      pose proof (copy_to_changes _ _ _ _ _ CP) as Hd.
      destruct (copy_to_effect lower attributes _ _ _ _ _ CP Wc) as (Rd & Fd & _ & Good & Bad).
      assert (changes st sd [old; new]) as Had.
      { apply (changes_trans _ _ _ _ Hac). apply (changes_more _ _ [new]); [exact Hd|]. intros x [<-|[]]; right; now left. }
      assert (oget (o_fs sd) new <> Some ODir) as Odn.
      { destruct rc as [[]|ec].
        - destruct (Good eq_refl) as (_ & _ & o & i & _ & X & _). congruence.
        - now rewrite (Bad ec eq_refl). }
      assert (oget (o_fs sd) old = None) as Odo by (rewrite Fd; [exact Eo|congruence]).
      destruct rc as [[]|ec]; injection H as _ <-.
      + apply Fin.
        * apply (changes_trans _ _ _ _ Had). apply (changes_more _ _ [old]); [apply mark_changes|]. intros x [<-|[]]; now left.
        * intros _. now rewrite mark_oget.
        * unfold is_deleted. destruct (mark_effect lower sd old) as (_ & _ & _ & ->).
          rewrite (loc_eqb_neq new old) by congruence. rewrite Rd. fold (is_deleted sc new). congruence.
        * now rewrite mark_oget, Odo.
        * now rewrite mark_oget.
      + apply Fin; auto.
        * unfold is_deleted. rewrite Rd. fold (is_deleted sc new). congruence.
        * congruence.
  Qed.

  Lemma step_clean st o : well_kept st -> clean lower st -> passed_on lower st o -> committable lower st o ->
    clean lower (snd (step zero lower lower_names attributes st o)).
  Proof.
    intros W C P K. destruct (step zero lower lower_names attributes st o) as [r st1] eqn:S. cbn [snd].
    destruct o as [p m|p m|p|p t|p s|p|p|a b|p n|p|i d off|p c]; cbn [step passed_on committable] in *.
    - destruct P as (N & I & V). unfold drop in S. destruct (create lower st p m) as [r2 st2] eqn:X. injection S as _ <-.
      now apply (create_clean st p m r2 st2).
    - destruct P as (N & I & V). now apply (mkdir_clean st p m r st1).
    - destruct P as (N & I & V). now apply (mknod_clean st p r st1).
    - destruct P as (N & I & V). apply (add_clean st st p (OLink t) r st1); auto; [apply changes_refl| |discriminate].
      now apply hidden_free; [|apply N|].
    - destruct P as (N & I & V). now apply (link_clean st p s r st1).
    - destruct P as (N & e & V & E). now apply (unlink_clean st p r st1 e).
    - destruct P as (N & V). now apply (rmdir_clean st p r st1).
    - destruct P as (Na & Nb & Neq & V & I), K as (K1 & K2).
      destruct (visible st a) as [e|] eqn:Va; [|congruence]. apply (rename_clean st a b e r st1); auto. congruence.
    - destruct P as (N & c & V). now apply (truncate_clean st p n c r st1).
    - destruct P as (N & c & V). unfold drop in S. destruct (open_overlay lower st p true) as [r2 st2] eqn:X.
      injection S as _ <-. now apply (open_clean st p c r2 st2).
    - unfold write in S. injection S as _ <-. now apply (same_fs_clean st).
    - now apply (attributes_clean st p c r st1).
  Qed.

  Lemma fresh_clean : clean lower (@fresh_overlay A).
  Proof.
    constructor; cbn [fresh_overlay o_fs o_rows].
    - constructor.
    - intros p H. now destruct H.
    - intros p H. discriminate.
    - intros p H. discriminate.
    - intros p n V. change (visible fresh_overlay (p ++ [n])) with (union_lookup (@fresh_overlay A) (p ++ [n])) in V.
      rewrite oget_None_lookup in V by (reflexivity || apply snoc_nonempty).
      destruct (lower (p ++ [n])) eqn:L; [|now destruct V].
      destruct (proj2 low p n) as [X|X]; [congruence|auto|]. right.
      change (visible fresh_overlay p) with (union_lookup (@fresh_overlay A) p).
      destruct p as [|a p]; [reflexivity|]. rewrite oget_None_lookup by (reflexivity || discriminate). now rewrite X.
    - intros p H. discriminate.
  Qed.

  Lemma history_clean h : forall st, well_kept st -> clean lower st ->
    fair_history lower (step zero lower lower_names attributes) st h ->
    clean lower (run zero lower lower_names attributes st h) /\ well_kept (run zero lower lower_names attributes st h).
  Proof.
    induction h as [|o h IH]; intros st W C F; [auto|]. destruct F as (P & K & F). cbn [run fold_left].
    apply (IH (snd (step zero lower lower_names attributes st o))); auto.
    - now apply step_kept.
    - now apply step_clean.
  Qed.
End Clean.

Section Tree.
  Context {A : Type}.
  Notation member := (str * @lnode A)%type.

  Lemma archive_tree (M : list member) : consistent M -> tree_like LDir (archive_shows M) (archive_names M).
  Proof.
    intros K.
    assert (forall p n, In n (archive_names M p) <-> exists m r, In m M /\ denotes (fst m) = p ++ n :: r) as Names.
    { intros p n. unfold archive_names. rewrite in_flat_map. split.
      - intros (m & I & J). destruct (loc_prefix_spec p (denotes (fst m))) as [(r & E)|]; [|destruct J].
        rewrite E, skipn_app, skipn_all, Nat.sub_diag in J. cbn [skipn app] in J.
        destruct r as [|x r]; [destruct J|]. destruct J as [->|[]]. eauto.
      - intros (m & r & I & E). exists m. split; [exact I|]. rewrite E.
        destruct (loc_prefix_spec p (p ++ n :: r)) as [_|X]; [|destruct X; now exists (n :: r)].
        rewrite skipn_app, skipn_all, Nat.sub_diag. now left. }
    assert (forall p n, archive_shows M (p ++ [n]) <> None -> exists m r, In m M /\ denotes (fst m) = p ++ n :: r) as Some_m.
    { intros p n H. destruct (existsb (fun m => loc_prefix (p ++ [n]) (denotes (fst m))) M) eqn:X.
      - apply existsb_exists in X. destruct X as (m & I & B). destruct (loc_prefix_spec (p ++ [n]) (denotes (fst m))) as [(r & E)|]; [|discriminate].
        exists m, r. split; [exact I|]. rewrite E, <- app_assoc. reflexivity.
      - destruct H. apply shows_None. intros m I B. rewrite existsb_false in X. specialize (X m I). cbn in X.
        destruct (loc_prefix_spec (p ++ [n]) (denotes (fst m))); [discriminate|auto]. }
    split.
    - intros p n. rewrite Names. split; [|apply Some_m]. intros (m & r & I & E) H.
      apply (proj1 (shows_None M (p ++ [n])) H m I). exists r. rewrite E, <- app_assoc. reflexivity.
    - intros p n H. destruct (Some_m p n H) as (m & r & I & E). destruct p as [|a p]; [auto|]. right.
      apply (K m (a :: p) (n :: r) I E); discriminate.
  Qed.

  Definition consistentb (M : list member) : bool :=
    forallb (fun m => forallb (fun k => match archive_shows M (firstn k (denotes (fst m))) with Some LDir => true | _ => false end)
                              (seq 1 (length (denotes (fst m)) - 1))) M.

  Lemma consistentb_spec M : consistentb M = true -> consistent M.
  Proof.
    unfold consistentb. intros H m q r I E Nq Nr. rewrite forallb_forall in H. specialize (H m I).
    rewrite forallb_forall in H. specialize (H (length q)). rewrite E, firstn_app, firstn_all, Nat.sub_diag in H.
    cbn [firstn] in H. rewrite app_nil_r in H.
    assert (In (length q) (seq 1 (length (q ++ r) - 1))) as J.
    { apply in_seq. rewrite app_length. destruct q; [congruence|]. destruct r; [congruence|]. cbn [length]. lia. }
    specialize (H J). destruct (archive_shows M q) as [[| |]|]; congruence.
  Qed.
End Tree.

(** ** Deciding whether a history is fair, for examples *)
Section Decide.
  Context {A : Type}.
  Variable lower : location -> option (@lnode A).

  Definition proper_nameb (n : str) : bool :=
    negb (str_eqb n []) && negb (str_eqb n $".") && negb (str_eqb n $"..") && negb (existsb (char_eqb slash) n).

  Lemma proper_nameb_spec n : proper_nameb n = true -> proper_name n.
  Proof.
    unfold proper_nameb. rewrite !andb_true_iff, !negb_true_iff. intros (((H1 & H2) & H3) & H4).
    apply str_eqb_neq in H1, H2, H3. repeat (split; [assumption|]). intros I.
    assert (existsb (char_eqb slash) n = true) as X; [|congruence]. apply existsb_exists. exists slash. split; [exact I|].
    now destruct (char_eqb_spec slash slash).
  Qed.

  Definition name_okb (p : location) : bool := negb (loc_eqb p []) && forallb proper_nameb p.

  Lemma name_okb_spec p : name_okb p = true -> name_ok p.
  Proof.
    unfold name_okb. rewrite andb_true_iff, negb_true_iff. intros (H1 & H2). split.
    - intros ->. now rewrite loc_eqb_refl in H1.
    - rewrite forallb_forall in H2. apply Forall_forall. intros n I. now apply proper_nameb_spec, H2.
  Qed.

  Definition kind_at (st : @ostate A) (p : location) : nat :=
    match visible lower st p with None => 0 | Some EDir => 1 | Some (EFile _) => 2 | Some (ELink _) => 3 end.

  Definition in_folderb st p : bool := loc_eqb (removelast p) [] || Nat.eqb (kind_at st (removelast p)) 1.

  Lemma in_folderb_spec st p : in_folderb st p = true -> in_folder lower st p.
  Proof.
    unfold in_folderb, kind_at, in_folder. intros H. destruct (loc_eqb_spec (removelast p) []) as [->|]; [auto|]. right.
    cbn [orb] in H. destruct (visible lower st (removelast p)) as [[| |]|]; cbn in H; congruence.
  Qed.

  Definition is_folder_or_none (p : location) : bool := match lower p with None | Some LDir => true | _ => false end.

  Definition fairb (st : @ostate A) (o : @op A) : bool :=
    match o with
    | OpCreate p _ => name_okb p && in_folderb st p && Nat.eqb (kind_at st p) 0
    | OpMkdir p _ => name_okb p && in_folderb st p && Nat.eqb (kind_at st p) 0 && is_folder_or_none p
    | OpMknod p | OpSymlink p _ | OpLink p _ => name_okb p && in_folderb st p && Nat.eqb (kind_at st p) 0 && negb (is_deleted st p)
    | OpUnlink p => name_okb p && Nat.leb 2 (kind_at st p)
    | OpRmdir p => name_okb p && Nat.eqb (kind_at st p) 1
    | OpRename a b => name_okb a && name_okb b && negb (loc_eqb a b) && Nat.leb 2 (kind_at st a) && in_folderb st b &&
                      negb (Nat.eqb (kind_at st b) 1)
    | OpTruncate p _ | OpOpenWrite p => name_okb p && Nat.eqb (kind_at st p) 2
    | OpWrite _ _ _ => true
    | OpAttributes p _ => loc_eqb p [] || name_okb p && Nat.leb 1 (kind_at st p)
    end.

  Lemma fairb_spec st o : fairb st o = true -> passed_on lower st o /\ committable lower st o.
  Proof.
    destruct o as [p m|p m|p|p t|p s|p|p|a b|p n|p|i d off|p c]; cbn [fairb passed_on committable]; rewrite ?andb_true_iff.
    all: try (intros ((H1 & H2) & H3); apply name_okb_spec in H1; apply in_folderb_spec in H2; apply Nat.eqb_eq in H3;
              unfold kind_at in H3; split; [|exact I]; split; [exact H1|split; [exact H2|]];
              destruct (visible lower st p) as [[| |]|]; congruence).
    all: try (intros (((H1 & H2) & H3) & H4); apply name_okb_spec in H1; apply in_folderb_spec in H2; apply Nat.eqb_eq in H3;
              unfold kind_at in H3; split; [split; [exact H1|split; [exact H2|]];
              destruct (visible lower st p) as [[| |]|]; congruence|]; now apply negb_true_iff).
    - intros (((H1 & H2) & H3) & H4); apply name_okb_spec in H1; apply in_folderb_spec in H2; apply Nat.eqb_eq in H3.
      unfold kind_at in H3. split; [split; [exact H1|split; [exact H2|]];
              destruct (visible lower st p) as [[| |]|]; congruence|].
      unfold is_folder_or_none in H4. destruct (lower p) as [[| |]|]; auto; discriminate.
    - intros (H1 & H2). apply name_okb_spec in H1. split; [|exact I]. split; [exact H1|]. unfold kind_at in H2.
      destruct (visible lower st p) as [[| |]|]; try discriminate H2; eexists; split; eauto; discriminate.
    - intros (H1 & H2). apply name_okb_spec in H1. split; [|exact I]. split; [exact H1|]. unfold kind_at in H2.
      destruct (visible lower st p) as [[| |]|]; try discriminate H2; reflexivity.
    - intros (((((H1 & H2) & H3) & H4) & H5) & H6). apply name_okb_spec in H1, H2. apply in_folderb_spec in H5.
      unfold kind_at in H4, H6. split.
      + split; [exact H1|]. split; [exact H2|]. split; [|split; [|exact H5]].
        * intros ->. now rewrite loc_eqb_refl in H3.
        * destruct (visible lower st a) as [[| |]|]; cbn in H4; congruence.
      + split; [destruct (visible lower st a) as [[| |]|]; cbn in H4; congruence|
                destruct (visible lower st b) as [[| |]|]; cbn in H6; congruence].
    - intros (H1 & H2). apply name_okb_spec in H1. split; [|exact I]. split; [exact H1|]. unfold kind_at in H2.
      destruct (visible lower st p) as [[| |]|]; try discriminate H2; eauto.
    - intros (H1 & H2). apply name_okb_spec in H1. split; [|exact I]. split; [exact H1|]. unfold kind_at in H2.
      destruct (visible lower st p) as [[| |]|]; try discriminate H2; eauto.
    - auto.
    - intros H. split; [|exact I]. intros Np. destruct (loc_eqb_spec p []) as [|_]; [congruence|]. cbn [orb] in H.
      apply andb_true_iff in H. destruct H as (H1 & H2). apply name_okb_spec in H1. split; [exact H1|]. unfold kind_at in H2.
      destruct (visible lower st p); [discriminate|discriminate H2].
  Qed.

  Fixpoint all_fair (step : @ostate A -> @op A -> res unit * @ostate A) (st : @ostate A) (h : list op) : bool :=
    match h with [] => true | o :: r => fairb st o && all_fair step (snd (step st o)) r end.

  Lemma all_fair_spec step h : forall st, all_fair step st h = true -> fair_history lower step st h.
  Proof.
    induction h as [|o h IH]; cbn [all_fair fair_history]; intros st H; [exact I|]. apply andb_true_iff in H.
    destruct H as (H1 & H2). apply fairb_spec in H1. destruct H1. auto.
  Qed.
End Decide.
