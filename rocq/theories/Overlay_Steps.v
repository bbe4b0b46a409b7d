(** Effects of the operations of the write overlay. *)
From Coq Require Import Ascii String.
From Verif Require Import PyBase PyDict PyStr Path_Spec Overlay_Model Overlay_Spec Overlay_Proofs.

Section Steps.
  Context {A : Type} (zero : A).
  Notation ostate := (@ostate A).
  Variable lower : location -> option (@lnode A).
  Variable lower_names : location -> list str.
  Variable attributes : ostate -> location -> Z * Z * Z * Z.
  Hypothesis low : tree_like LDir lower lower_names.

  Implicit Types st : ostate.

  Notation visible := (visible lower).
  Notation union_lookup := (union_lookup lower).
  Notation step := (step zero lower lower_names attributes).

  Lemma lookup_same st st1 q : oget (o_fs st1) q = oget (o_fs st) q ->
    (forall i, oget (o_fs st) q = Some (OFile i) -> content_of st1 i = content_of st i) ->
    union_lookup st1 q = union_lookup st q.
  Proof.
    intros E C. destruct q as [|a q]; [reflexivity|]. unfold Overlay_Model.union_lookup. rewrite E.
    destruct (oget (o_fs st) (a :: q)) as [[|i|t]|] eqn:O; try reflexivity.
    cbn [entry_of_overlay]. now rewrite (C i eq_refl).
  Qed.

  Lemma visible_same st st1 q : is_deleted st1 q = is_deleted st q -> union_lookup st1 q = union_lookup st q ->
    visible st1 q = visible st q.
  Proof. unfold Overlay_Model.visible. now intros -> ->. Qed.

  Lemma deleted_rows st st1 q : o_rows st1 = o_rows st -> is_deleted st1 q = is_deleted st q.
  Proof. unfold is_deleted. now intros ->. Qed.

  Lemma content_set st i c j : content_of (set_ino st i c) j = if Nat.eqb i j then c else content_of st j.
  Proof. reflexivity. Qed.

  (** ** os.open with O_CREAT and O_TRUNC *)
  Lemma os_create_effect st p r st1 : os_create st p = (r, st1) ->
    o_rows st1 = o_rows st /\
    (forall q, q <> p -> oget (o_fs st1) q = oget (o_fs st) q) /\
    (forall i, i < o_next st -> oget (o_fs st) p <> Some (OFile i) -> content_of st1 i = content_of st i) /\
    (forall i, r = Ok i -> p <> [] /\ oget (o_fs st1) p = Some (OFile i) /\ content_of st1 i = [] /\
               (oget (o_fs st) p = Some (OFile i) \/ (oget (o_fs st) p = None /\ i = o_next st))) /\
    (forall e, r = Err e -> st1 = st).
  Proof.
    unfold os_create. intros H.
    destruct (overlay_is_dir st (removelast p)); cbn [negb] in H.
    2:{ injection H as <- <-; repeat split; auto; congruence. }
    destruct p as [|a p]; [injection H as <- <-; repeat split; auto; congruence|].
    destruct (oget (o_fs st) (a :: p)) as [[|i|t]|] eqn:E; injection H as <- <-;
      try (repeat split; auto; congruence).
    - repeat split; auto; try congruence.
      + intros j Hj N. rewrite content_set. destruct (Nat.eqb_spec i j); congruence.
      + cbn [set_ino o_fs]. congruence.
      + injection H as ->. now rewrite content_set, Nat.eqb_refl.
      + injection H as ->. now left.
    - split; [|split; [|split; [|split]]]; cbn [o_rows o_fs]; auto; try congruence.
      + intros q N. now rewrite oget_oset, loc_eqb_neq.
      + intros i Hi _. unfold content_of; cbn [o_ino]. apply upd_other; lia.
      + intros i [= <-]. split; [discriminate|]. rewrite oget_oset, loc_eqb_refl. split; [reflexivity|].
        split; [|now right]. unfold content_of; cbn [o_ino]. apply upd_same.
  Qed.

  Lemma copy_to_effect st source target r st1 : copy_to lower st source target = (r, st1) -> well_kept st ->
    o_rows st1 = o_rows st /\
    (forall q, q <> target -> oget (o_fs st1) q = oget (o_fs st) q) /\
    (forall i, i < o_next st -> oget (o_fs st) target <> Some (OFile i) -> content_of st1 i = content_of st i) /\
    (r = Ok tt -> target <> [] /\ source <> [] /\ exists o i, union_open lower st source = Some o /\
       oget (o_fs st1) target = Some (OFile i) /\
       (oget (o_fs st) target = Some (OFile i) \/ (oget (o_fs st) target = None /\ i = o_next st)) /\
       content_of st1 i = match o with
                          | FromLower c => c
                          | FromOverlay j => if Nat.eqb i j then [] else content_of st j
                          end) /\
    (forall e, r = Err e -> st1 = st).
  Proof.
    unfold copy_to. intros H W. destruct (union_open lower st source) as [o|] eqn:O.
    2:{ injection H as <- <-; repeat split; auto; congruence. }
    destruct (os_create st target) as [[i|e] st'] eqn:C; injection H as <- <-;
      destruct (os_create_effect _ _ _ _ C) as (E1 & E2 & E3 & E4 & E5).
    - destruct (E4 i eq_refl) as (Nt & Ei & Ec & Eo).
      split; [exact E1|]. split; [exact E2|]. split; [|split; [|congruence]].
      + intros j Hj N. rewrite content_set. destruct (Nat.eqb_spec i j) as [<-|]; [|now apply E3].
        exfalso. destruct Eo as [Eo|[_ ->]]; [congruence|lia].
      + intros _. split; [exact Nt|]. split; [intros ->; discriminate|].
        exists o, i. split; [reflexivity|]. split; [exact Ei|]. split; [exact Eo|].
        rewrite content_set, Nat.eqb_refl. destruct o as [c|j]; cbn [read_opened]; [reflexivity|].
        destruct (Nat.eqb_spec i j) as [<-|Nij]; [exact Ec|].
        assert (oget (o_fs st) source = Some (OFile j)) as Hj.
        { unfold union_open in O. destruct source as [|a source]; [discriminate|].
          destruct (oget (o_fs st) (a :: source)) as [[|k|]|]; try discriminate; [congruence|].
          destruct (lower (a :: source)) as [[| |]|]; discriminate. }
        apply E3; [exact (proj1 W _ _ Hj)|]. intros E. destruct Eo as [Eo|[Eo _]]; congruence.
    - rewrite (E5 e eq_refl). repeat split; auto; try congruence.
      all: discriminate.
  Qed.

  Lemma os_add_effect st p n r st1 : os_add st p n = (r, st1) ->
    o_rows st1 = o_rows st /\ o_ino st1 = o_ino st /\ o_next st1 = o_next st /\
    (forall q, q <> p -> oget (o_fs st1) q = oget (o_fs st) q) /\
    (r = Ok tt -> p <> [] /\ oget (o_fs st1) p = Some n /\ oget (o_fs st) p = None) /\
    (forall e, r = Err e -> st1 = st).
  Proof.
    unfold os_add. intros H.
    destruct (overlay_is_dir st (removelast p)); cbn [negb] in H.
    2:{ injection H as <- <-; repeat split; auto; congruence. }
    destruct (in_overlay st p) eqn:I; injection H as <- <-; [repeat split; auto; congruence|].
    repeat split; auto; cbn [o_fs with_fs].
    - intros q N. now rewrite oget_oset, loc_eqb_neq.
    - intros ->; discriminate.
    - now rewrite oget_oset, loc_eqb_refl.
    - unfold in_overlay in I. destruct p as [|a p]; [discriminate|]. now destruct (oget (o_fs st) (a :: p)).
    - congruence.
  Qed.

  Lemma os_unlink_effect st p r st1 : os_unlink st p = (r, st1) ->
    o_rows st1 = o_rows st /\ o_ino st1 = o_ino st /\ o_next st1 = o_next st /\
    (forall q, q <> p -> oget (o_fs st1) q = oget (o_fs st) q) /\
    (r = Ok tt -> oget (o_fs st1) p = None).
  Proof.
    unfold os_unlink. intros H. destruct p as [|a p]; [injection H as <- <-; repeat split; auto; congruence|].
    destruct (oget (o_fs st) (a :: p)) as [[| |]|]; injection H as <- <-; repeat split; auto; try congruence;
      cbn [o_fs with_fs]; intros; rewrite oget_odel; rewrite ?loc_eqb_refl, ?loc_eqb_neq by assumption; reflexivity.
  Qed.

  Lemma os_rmdir_effect st p r st1 : os_rmdir st p = (r, st1) ->
    o_rows st1 = o_rows st /\ o_ino st1 = o_ino st /\ o_next st1 = o_next st /\
    (forall q, q <> p -> oget (o_fs st1) q = oget (o_fs st) q) /\
    (r = Ok tt -> oget (o_fs st1) p = None).
  Proof.
    unfold os_rmdir. intros H.
    destruct (oget (o_fs st) p) as [[| |]|]; try (injection H as <- <-; repeat split; auto; congruence).
    destruct (overlay_names (o_fs st) p); injection H as <- <-; repeat split; auto; try congruence;
      cbn [o_fs with_fs]; intros; rewrite oget_odel; rewrite ?loc_eqb_refl, ?loc_eqb_neq by assumption; reflexivity.
  Qed.

  Definition renamed_as st old new (r : res unit) st1 : Prop :=
    o_rows st1 = o_rows st /\ o_ino st1 = o_ino st /\ o_next st1 = o_next st /\
    (forall q, ~ at_or_below old q -> ~ at_or_below new q -> oget (o_fs st1) q = oget (o_fs st) q) /\
    (forall q, ~ at_or_below new q -> oget (o_fs st1) q = oget (o_fs st) q \/ oget (o_fs st1) q = None) /\
    (r = Ok tt -> old <> [] /\ new <> [] /\ exists n, oget (o_fs st) old = Some n /\ oget (o_fs st1) new = Some n /\
                  (old <> new -> oget (o_fs st1) old = None) /\
                  (n = ODir -> old <> new -> ~ at_or_below old new /\
                     forall rest, oget (o_fs st1) (new ++ rest) = oget (o_fs st) (old ++ rest))) /\
    (forall e, r = Err e -> st1 = st).

  Lemma os_rename_effect st old new r st1 : os_rename st old new = (r, st1) -> well_kept st ->
    renamed_as st old new r st1.
  Proof.
    unfold os_rename. intros H W.
    destruct (loc_eqb_spec old []) as [|No]; [injection H as <- <-; repeat split; auto; congruence|].
    destruct (loc_eqb_spec new []) as [|Nn]; [injection H as <- <-; repeat split; auto; congruence|]. cbn [orb] in H.
    destruct (oget (o_fs st) old) as [n|] eqn:Eo; [|injection H as <- <-; repeat split; auto; congruence].
    destruct (overlay_is_dir st (removelast new)) eqn:D; cbn [negb] in H;
      [|injection H as <- <-; repeat split; auto; congruence].
    destruct (loc_eqb_spec old new) as [->|Ne].
    { injection H as <- <-; repeat split; auto; try congruence.
      exists n; repeat split; auto; congruence. }
    assert (Hfile : n <> ODir -> (r, st1) = (Ok tt, with_fs st (oset (odel (odel (o_fs st) old) new) new n)) ->
      renamed_as st old new r st1).
    { intros Nd [= -> ->]. unfold renamed_as. cbn [o_rows o_ino o_next o_fs with_fs].
      assert (G : forall q, oget (oset (odel (odel (o_fs st) old) new) new n) q =
                            if loc_eqb q new then Some n else if loc_eqb q old then None else oget (o_fs st) q).
      { intros q. rewrite oget_oset, !oget_odel. now destruct (loc_eqb q new). }
      repeat split; auto; try congruence.
      - intros q B1 B2. rewrite G, !loc_eqb_neq; [reflexivity| |]; intros ->; [apply B1|apply B2];
          exists []; now rewrite app_nil_r.
      - intros q B2. rewrite G, loc_eqb_neq; [destruct (loc_eqb q old); auto|].
        intros ->; apply B2; exists []; now rewrite app_nil_r.
      - exists n. rewrite !G, loc_eqb_refl. repeat split; auto; try congruence.
        intros _. rewrite loc_eqb_neq, loc_eqb_refl by congruence. reflexivity. }
    destruct n as [|i|t].
    - destruct (loc_prefix_spec old new) as [B|B]; [injection H as <- <-; repeat split; auto; congruence|].
      assert (Hdir : forall fs, (forall q, ~ at_or_below new q -> oget fs q = oget (o_fs st) q) ->
        (forall r, oget fs (new ++ r) = None) -> (r, st1) = (Ok tt, with_fs st (map (moved old new) fs)) ->
        renamed_as st old new r st1).
      { intros fs S Free [= -> ->]. unfold renamed_as. cbn [o_rows o_ino o_next o_fs with_fs].
        assert (G : forall q, oget (map (moved old new) fs) q =
          if loc_prefix new q then oget fs (old ++ skipn (length new) q) else if loc_prefix old q then None else oget fs q).
        { intros q. apply oget_moved. intros k v I [s ->]. exact (no_key fs _ (Free s) v I). }
        assert (NB : ~ at_or_below new old).
        { intros [s E]. (* old below new: new would exist as a folder *)
          assert (oget fs old = None) by (rewrite E; apply Free).
          destruct (loc_prefix_spec new old) as [X|X]; [|apply X; now exists s].
          clear X. assert (oget (o_fs st) new = Some ODir) as En.
          { destruct s as [|x s]; [rewrite app_nil_r in E; congruence|].
            destruct (oget (o_fs st) new) as [m|] eqn:Em.
            - destruct m; auto; exfalso;
                (assert (oget (o_fs st) (new ++ x :: s) = None) as Z;
                 [apply nothing_below; auto; [apply nondir_childless; auto; congruence|discriminate]|]);
                rewrite <- E in Z; congruence.
            - exfalso. assert (oget (o_fs st) (new ++ x :: s) = None) as Z;
                [apply nothing_below; auto; [apply nondir_childless; auto; congruence|discriminate]|].
              rewrite <- E in Z; congruence. }
          rewrite En in H. destruct (overlay_names (o_fs st) new) as [|y l] eqn:Names; [|congruence].
          destruct s as [|x s]; [rewrite app_nil_r in E; congruence|].
          assert (oget (o_fs st) (new ++ x :: s) = None) as Z.
          { apply nothing_below; auto; [|discriminate]. intros n0.
            destruct (oget (o_fs st) (new ++ [n0])) eqn:F; [|reflexivity].
            assert (In n0 (overlay_names (o_fs st) new)) as I by (apply In_overlay_names; congruence).
            rewrite Names in I; destruct I. }
          rewrite <- E in Z; congruence. }
        assert (Sub : forall rest, oget (map (moved old new) fs) (new ++ rest) = oget (o_fs st) (old ++ rest)).
        { intros rest. rewrite G. destruct (loc_prefix_spec new (new ++ rest)) as [_|X]; [|exfalso; apply X; now exists rest].
          rewrite skipn_app, skipn_all, Nat.sub_diag; cbn [app skipn]. apply S.
          intros [s E].
          (* new ++ s = old ++ rest and new not above old: old is a prefix of new *)
          apply app_eq_app in E as (l & [[E1 E2]|[E1 E2]]).
          - apply NB. exists l. exact E1.
          - apply B. exists l. exact E1. }
        repeat split; auto; try congruence.
        - intros q B1 B2. rewrite G. destruct (loc_prefix_spec new q); [tauto|]. destruct (loc_prefix_spec old q); [tauto|].
          now apply S.
        - intros q B2. rewrite G. destruct (loc_prefix_spec new q); [tauto|]. destruct (loc_prefix_spec old q); [now right|].
          left; now apply S.
        - exists ODir. repeat split; auto.
          + pose proof (Sub []) as X. rewrite !app_nil_r in X. rewrite X. exact Eo.
          + intros _. rewrite G. destruct (loc_prefix_spec new old) as [X|X]; [tauto|]. now rewrite loc_prefix_refl. }
      destruct (oget (o_fs st) new) as [[| |]|] eqn:En; try (injection H as <- <-; repeat split; auto; congruence).
      + destruct (overlay_names (o_fs st) new) as [|x l] eqn:Names;
          [|injection H as <- <-; repeat split; auto; congruence].
        apply (Hdir (odel (o_fs st) new)); [| |now symmetry].
        * intros q B2. rewrite oget_odel, loc_eqb_neq; [reflexivity|]. intros ->; apply B2; exists []; now rewrite app_nil_r.
        * intros s. rewrite oget_odel. destruct (loc_eqb_spec (new ++ s) new) as [|Ns]; [reflexivity|].
          apply nothing_below; auto; [|intros ->; apply Ns, app_nil_r].
          intros n. destruct (oget (o_fs st) (new ++ [n])) eqn:F; [|reflexivity].
          assert (In n (overlay_names (o_fs st) new)) as I by (apply In_overlay_names; congruence).
          rewrite Names in I; destruct I.
      + apply (Hdir (o_fs st)); [auto| |now symmetry].
        intros s. destruct s as [|x s]; [now rewrite app_nil_r|].
        apply nothing_below; auto; [|discriminate]. apply nondir_childless; auto. congruence.
    - destruct (oget (o_fs st) new) as [[| |]|] eqn:En;
        try (injection H as <- <-; repeat split; auto; congruence); apply Hfile; congruence.
    - destruct (oget (o_fs st) new) as [[| |]|] eqn:En;
        try (injection H as <- <-; repeat split; auto; congruence); apply Hfile; congruence.
  Qed.

  (** ** Rows *)

  Lemma mark_effect st p : o_fs (mark_as_deleted lower st p) = o_fs st /\ o_ino (mark_as_deleted lower st p) = o_ino st /\
    o_next (mark_as_deleted lower st p) = o_next st /\
    (forall q, rget (o_rows (mark_as_deleted lower st p)) q =
               if loc_eqb q p then (if union_exists lower st p then Some (mkRow None None None None true) else None)
               else rget (o_rows st) q).
  Proof.
    unfold mark_as_deleted. destruct (union_exists lower st p); repeat split; cbn [o_rows with_rows]; intros q.
    - apply rget_rset.
    - apply rget_rdel.
  Qed.

  Lemma mark_kept st p : well_kept st -> well_kept (mark_as_deleted lower st p).
  Proof.
    intros W. unfold mark_as_deleted. destruct (union_exists lower st p); apply rows_kept; auto;
      [apply NoDup_rset|apply NoDup_rdel]; exact (proj1 (proj2 W)).
  Qed.

  (** A path marked as deleted after the overlay no longer has it is not visible. *)
  Lemma mark_hides st p : visible (mark_as_deleted lower st p) p = None.
  Proof.
    unfold Overlay_Model.visible, is_deleted.
    destruct (mark_effect st p) as (Ef & Ei & _ & Er). rewrite Er, loc_eqb_refl.
    unfold union_exists. destruct (union_lookup st p) eqn:L; [reflexivity|].
    rewrite <- L. apply lookup_same; [now rewrite Ef|]. intros; now apply content_ino.
  Qed.

  Lemma mark_other st p q : q <> p -> visible (mark_as_deleted lower st p) q = visible st q.
  Proof.
    intros N. destruct (mark_effect st p) as (Ef & Ei & _ & Er). apply visible_same.
    - unfold is_deleted. now rewrite Er, loc_eqb_neq.
    - apply lookup_same; [now rewrite Ef|]. intros; now apply content_ino.
  Qed.

  Lemma open_row_effect st p m r st1 : open_row lower st p m = (r, st1) -> well_kept st ->
    well_kept st1 /\ o_ino st1 = o_ino st /\ o_next st1 = o_next st /\
    (forall q, union_lookup st1 q = union_lookup st q) /\
    (forall q n, n <> ODir -> oget (o_fs st1) q = Some n <-> oget (o_fs st) q = Some n) /\
    oget (o_fs st1) p = oget (o_fs st) p /\
    (forall q, q <> p -> is_deleted st1 q = is_deleted st q) /\
    (r = Ok tt -> is_deleted st1 p = false) /\
    (forall e, r = Err e -> o_rows st1 = o_rows st).
  Proof.
    unfold open_row. intros H W.
    destruct (ensure_parent_exists lower st p) as [[u|e] st0] eqn:E; injection H as <- <-;
      pose proof (ensure_parent_facts lower lower_names low _ _ _ _ E) as (F1 & F2 & F3 & F4);
      pose proof (ensure_parent_kept lower lower_names low _ _ _ _ E W) as W0;
      pose proof (ensure_parent_lookup lower lower_names low _ _ _ _ E) as L;
      pose proof (ensure_parent_file lower lower_names low _ _ _ _ E) as Fl;
      pose proof (ensure_parent_self lower lower_names low _ _ _ _ E) as Sf.
    - split; [|split; [exact F2|split; [exact F3|split; [exact L|split; [exact Fl|split; [exact Sf|split; [|split]]]]]]].
      + apply rows_kept; auto. apply NoDup_rset. exact (proj1 (proj2 W0)).
      + intros q N. unfold is_deleted; cbn [o_rows with_rows]. now rewrite rget_rset, loc_eqb_neq, F1.
      + intros _. unfold is_deleted; cbn [o_rows with_rows]. rewrite rget_rset, loc_eqb_refl.
        now destruct (rget (o_rows st0) p).
      + discriminate.
    - repeat split; auto; try congruence; try (apply Fl; assumption); try exact (proj1 W0); try exact (proj1 (proj2 W0));
        try exact (proj2 (proj2 W0)).
      intros q _. now apply deleted_rows.
  Qed.

  Lemma row_for_deleted st p r : row_for lower attributes st p = Ok r -> r_deleted r = is_deleted st p.
  Proof.
    unfold row_for, is_deleted. destruct (rget (o_rows st) p) as [r'|]; [now intros [= ->]|].
    destruct (union_exists lower st p); [|discriminate]. destruct (attributes st p) as [[[t m] u] g].
    now intros [= <-].
  Qed.

  (** ** All operations keep the overlay well-formed *)

  Ltac parent E W :=
    pose proof (ensure_parent_facts lower lower_names low _ _ _ _ E) as (?F1 & ?F2 & ?F3 & ?F4);
    pose proof (ensure_parent_kept lower lower_names low _ _ _ _ E W) as ?W0;
    pose proof (ensure_parent_lookup lower lower_names low _ _ _ _ E) as ?L0;
    pose proof (ensure_parent_file lower lower_names low _ _ _ _ E) as ?Fl0;
    pose proof (ensure_parent_self lower lower_names low _ _ _ _ E) as ?Sf0.

  Lemma copy_to_kept st source target r st1 : copy_to lower st source target = (r, st1) -> well_kept st -> well_kept st1.
  Proof.
    unfold copy_to. destruct (union_open lower st source); [|now intros [= _ <-]].
    destruct (os_create st target) as [[i|e] st'] eqn:C; intros [= _ <-] W; [apply set_ino_kept|];
      exact (os_create_kept _ _ _ _ C W).
  Qed.

  Lemma modifiable_kept st p r st1 : ensure_file_is_modifiable lower st p = (r, st1) -> well_kept st -> well_kept st1.
  Proof.
    unfold ensure_file_is_modifiable. intros H W.
    destruct (ensure_parent_exists lower st p) as [[u|e] st0] eqn:E; parent E W.
    - exact (copy_to_kept _ _ _ _ _ H W0).
    - now injection H as _ <-.
  Qed.

  Lemma mknod_kept st p r st1 : mknod lower st p = (r, st1) -> well_kept st -> well_kept st1.
  Proof.
    unfold mknod. intros H W.
    destruct (ensure_parent_exists lower st p) as [[u|e] st0] eqn:E; parent E W; [|now injection H as _ <-].
    destruct (os_add st0 p (OFile (o_next st0))) as [[u'|e] st2] eqn:Ad.
    - injection H as _ <-. unfold os_add in Ad.
      destruct (overlay_is_dir st0 (removelast p)) eqn:D; cbn [negb] in Ad; [|discriminate].
      destruct (in_overlay st0 p) eqn:I; [discriminate|]. injection Ad as _ <-.
      cbn [o_fs o_ino o_next o_rows with_fs].
      apply add_entry_kept; auto. intros i [= <-]; lia.
    - injection H as _ <-. destruct (os_add_effect _ _ _ _ _ Ad) as (_ & _ & _ & _ & _ & X). now rewrite (X e eq_refl).
  Qed.

  Lemma rename_kept st old new r st1 : rename lower attributes st old new = (r, st1) -> well_kept st -> well_kept st1.
  Proof.
    unfold rename. intros H W.
    destruct (negb (union_exists lower st old) || is_deleted st old); [now injection H as _ <-|].
    assert (W1 : well_kept (with_rows st (rdel (o_rows st) new))).
    { apply rows_kept; auto. apply NoDup_rdel. exact (proj1 (proj2 W)). }
    destruct (row_for lower attributes (with_rows st (rdel (o_rows st) new)) old) as [r0|e]; [|now injection H as _ <-].
    set (st1' := with_rows st (rdel (o_rows st) new)) in *.
    assert (W2 : well_kept (with_rows st1' (rset (rdel (o_rows st1') old) new r0))).
    { apply rows_kept; auto. apply NoDup_rset, NoDup_rdel. exact (proj1 (proj2 W1)). }
    set (st2 := with_rows st1' (rset (rdel (o_rows st1') old) new r0)) in *.
    destruct (ensure_parent_exists lower st2 new) as [[u|e] st3] eqn:E; parent E W2; [|now injection H as _ <-].
    destruct (in_overlay st3 old).
    - exact (os_rename_kept _ _ _ _ _ H W0).
    - destruct (copy_to lower st3 old new) as [[u'|e] st4] eqn:C; injection H as _ <-;
        [apply mark_kept|]; exact (copy_to_kept _ _ _ _ _ C W0).
  Qed.

  Lemma step_kept st o : well_kept st -> well_kept (snd (step st o)).
  Proof.
    intros W. destruct o; cbn [Overlay_Model.step].
    - unfold drop, create. cbn [snd].
      destruct (open_row lower st p mode) as [[u|e] st1] eqn:E; pose proof (open_row_effect _ _ _ _ _ E W) as (W1 & _);
        [|exact W1].
      destruct (os_create st1 p) as [r st2] eqn:C. exact (os_create_kept _ _ _ _ C W1).
    - unfold mkdir.
      destruct (open_row lower st p mode) as [[u|e] st1] eqn:E; pose proof (open_row_effect _ _ _ _ _ E W) as (W1 & _);
        [|exact W1].
      destruct (os_add st1 p ODir) as [r st2] eqn:C. apply (os_add_kept _ _ _ _ _ C); auto. discriminate.
    - destruct (mknod lower st p) as [r st1] eqn:E. exact (mknod_kept _ _ _ _ E W).
    - unfold symlink. destruct (os_add st target (OLink source)) as [r st2] eqn:C.
      apply (os_add_kept _ _ _ _ _ C); auto. discriminate.
    - unfold link. destruct (negb (in_overlay st source) && union_exists lower st source); [exact W|].
      destruct source as [|s0 source]; [exact W|].
      destruct (oget (o_fs st) (s0 :: source)) as [[|i|t]|] eqn:E; try exact W.
      + destruct (os_add st target (OFile i)) as [r st2] eqn:C. apply (os_add_kept _ _ _ _ _ C); auto.
        intros j [= <-]. exact (proj1 W _ _ E).
      + destruct (os_add st target (OLink t)) as [r st2] eqn:C. apply (os_add_kept _ _ _ _ _ C); auto. discriminate.
    - unfold unlink. destruct (negb (union_exists lower st p) || is_deleted st p); [now apply mark_kept|].
      destruct (in_overlay st p); [|now apply mark_kept].
      destruct (os_unlink st p) as [r st1] eqn:U. apply mark_kept. exact (os_unlink_kept _ _ _ _ U W).
    - unfold rmdir. destruct (negb (union_exists lower st p) || is_deleted st p); [exact W|].
      destruct (negb (subset (union_names lower_names st p) (list_deleted st p))); [exact W|].
      destruct (in_overlay st p); [|now apply mark_kept].
      destruct (os_rmdir st p) as [r st1] eqn:U. apply mark_kept. exact (os_rmdir_kept _ _ _ _ U W).
    - destruct (rename lower attributes st old new) as [r st1] eqn:E. exact (rename_kept _ _ _ _ _ E W).
    - unfold truncate. destruct (ensure_file_is_modifiable lower st p) as [[u|e] st1] eqn:E;
        pose proof (modifiable_kept _ _ _ _ E W) as W1; [|exact W1].
      unfold os_truncate. destruct (oget (o_fs st1) p) as [[| |]|]; exact W1.
    - unfold drop, open_overlay; cbn [snd]. destruct (in_overlay st p).
      + destruct p as [|a p]; [exact W|]. destruct (oget (o_fs st) (a :: p)) as [[| |]|]; exact W.
      + destruct (negb (union_exists lower st p)); [exact W|].
        destruct (ensure_file_is_modifiable lower st p) as [[u|e] st1] eqn:E;
          pose proof (modifiable_kept _ _ _ _ E W) as W1; [|exact W1].
        destruct p as [|a p]; [exact W1|]. destruct (oget (o_fs st1) (a :: p)) as [[| |]|]; exact W1.
    - exact W.
    - unfold set_attributes. destruct (row_for lower attributes st p) as [r|e]; [|exact W].
      assert (forall r', well_kept (with_rows st (rset (o_rows st) p r'))) as K.
      { intros r'. apply rows_kept; auto. apply NoDup_rset. exact (proj1 (proj2 W)). }
      destruct c as [m|[u|] [g|]|t]; apply K.
  Qed.

  Lemma run_kept st h : well_kept st -> well_kept (run zero lower lower_names attributes st h).
  Proof. revert st; induction h as [|o h IH]; intros st W; [exact W|]. apply IH, step_kept, W. Qed.

  Lemma fresh_kept : well_kept (@fresh_overlay A).
  Proof. split; [|split]; cbn; try discriminate; [constructor|congruence]. Qed.

  (** ** A call changes nothing but what it is about *)

  Lemma same_file_parent st p r st1 q a : ensure_parent_exists lower st p = (r, st1) ->
    same_file st1 a q -> same_file st a q.
  Proof.
    intros E (i & H1 & H2). pose proof (ensure_parent_file lower lower_names low _ _ _ _ E) as Fl.
    exists i; split; apply Fl; auto; discriminate.
  Qed.

  (** Calls that add one entry. *)
  Lemma add_frame st p n r st1 q : os_add st p n = (r, st1) -> q <> p -> visible st1 q = visible st q.
  Proof.
    intros H N. destruct (os_add_effect _ _ _ _ _ H) as (E1 & E2 & E3 & E4 & _).
    apply visible_same; [now apply deleted_rows|]. apply lookup_same; [now apply E4|].
    intros; now apply content_ino.
  Qed.

  Lemma create_lookup_frame st p r st1 q : os_create st p = (r, st1) -> well_kept st -> q <> p -> ~ same_file st p q ->
    visible st1 q = visible st q.
  Proof.
    intros H W N S. destruct (os_create_effect _ _ _ _ H) as (E1 & E2 & E3 & _).
    apply visible_same; [now apply deleted_rows|]. apply lookup_same; [now apply E2|].
    intros i O. apply E3; [exact (proj1 W _ _ O)|]. intros O'. apply S; now exists i.
  Qed.

  Lemma copy_frame st source target r st1 q : copy_to lower st source target = (r, st1) -> well_kept st ->
    q <> target -> ~ same_file st target q -> visible st1 q = visible st q.
  Proof.
    intros H W N S. destruct (copy_to_effect _ _ _ _ _ H W) as (E1 & E2 & E3 & _).
    apply visible_same; [now apply deleted_rows|]. apply lookup_same; [now apply E2|].
    intros i O. apply E3; [exact (proj1 W _ _ O)|]. intros O'. apply S; now exists i.
  Qed.

  Lemma parent_frame st p r st1 q : ensure_parent_exists lower st p = (r, st1) -> visible st1 q = visible st q.
  Proof.
    intros E. apply visible_same; [|exact (ensure_parent_lookup lower lower_names low _ _ _ _ E q)].
    apply deleted_rows. exact (proj1 (ensure_parent_facts lower lower_names low _ _ _ _ E)).
  Qed.

  Lemma open_row_frame st p m r st1 q : open_row lower st p m = (r, st1) -> well_kept st -> q <> p ->
    visible st1 q = visible st q.
  Proof.
    intros E W N. destruct (open_row_effect _ _ _ _ _ E W) as (_ & _ & _ & L & _ & _ & D & _).
    apply visible_same; [now apply D|apply L].
  Qed.

  Lemma modifiable_frame st p r st1 q : ensure_file_is_modifiable lower st p = (r, st1) -> well_kept st ->
    q <> p -> ~ same_file st p q -> visible st1 q = visible st q.
  Proof.
    unfold ensure_file_is_modifiable. intros H W N S.
    destruct (ensure_parent_exists lower st p) as [[u|e] st0] eqn:E; parent E W.
    - rewrite (copy_frame _ _ _ _ _ q H W0 N); [exact (parent_frame _ _ _ _ q E)|].
      intros X; apply S. exact (same_file_parent _ _ _ _ _ _ E X).
    - injection H as _ <-. exact (parent_frame _ _ _ _ q E).
  Qed.

  Lemma not_below_neq (p q : location) : ~ at_or_below p q -> q <> p.
  Proof. intros H ->. apply H. exists []. now rewrite app_nil_r. Qed.

  Lemma rename_frame st old new r st1 q : rename lower attributes st old new = (r, st1) -> well_kept st ->
    ~ at_or_below old q -> ~ at_or_below new q -> ~ same_file st new q -> visible st1 q = visible st q.
  Proof.
    unfold rename. intros H W N1 N2 S.
    destruct (negb (union_exists lower st old) || is_deleted st old); [now injection H as _ <-|].
    set (st1' := with_rows st (rdel (o_rows st) new)) in *.
    assert (W1 : well_kept st1').
    { apply rows_kept; auto. apply NoDup_rdel. exact (proj1 (proj2 W)). }
    assert (V1 : visible st1' q = visible st q).
    { apply visible_same; [|reflexivity]. unfold is_deleted; cbn [o_rows with_rows st1'].
      now rewrite rget_rdel, loc_eqb_neq by now apply not_below_neq. }
    destruct (row_for lower attributes st1' old) as [r0|e]; [|now injection H as _ <-].
    set (st2 := with_rows st1' (rset (rdel (o_rows st1') old) new r0)) in *.
    assert (W2 : well_kept st2).
    { apply rows_kept; auto. apply NoDup_rset, NoDup_rdel. exact (proj1 (proj2 W1)). }
    assert (V2 : visible st2 q = visible st q).
    { rewrite <- V1. apply visible_same; [|reflexivity]. unfold is_deleted, st2; cbn [o_rows with_rows].
      now rewrite rget_rset, rget_rdel, !loc_eqb_neq by now apply not_below_neq. }
    destruct (ensure_parent_exists lower st2 new) as [[u|e] st3] eqn:E; parent E W2.
    2:{ injection H as _ <-. rewrite <- V2. exact (parent_frame _ _ _ _ q E). }
    assert (V3 : visible st3 q = visible st q) by (rewrite <- V2; exact (parent_frame _ _ _ _ q E)).
    destruct (in_overlay st3 old).
    - destruct (os_rename_effect _ _ _ _ _ H W0) as (E1 & E2 & E3 & E4 & _).
      rewrite <- V3. apply visible_same; [now apply deleted_rows|]. apply lookup_same; [now apply E4|].
      intros; now apply content_ino.
    - destruct (copy_to lower st3 old new) as [[u'|e] st4] eqn:C; injection H as _ <-.
      + rewrite mark_other by now apply not_below_neq. rewrite <- V3.
        apply (copy_frame _ _ _ _ _ q C W0); [now apply not_below_neq|].
        intros X; apply S. exact (same_file_parent _ _ _ _ _ _ E X).
      + rewrite <- V3. apply (copy_frame _ _ _ _ _ q C W0); [now apply not_below_neq|].
        intros X; apply S. exact (same_file_parent _ _ _ _ _ _ E X).
  Qed.

  (** Opening for writing shows nothing new: the copy in the overlay folder is the file of the archive. *)
  Lemma modifiable_self st p r st1 : ensure_file_is_modifiable lower st p = (r, st1) -> well_kept st ->
    p <> [] -> oget (o_fs st) p = None ->
    forall q, visible st1 q = visible st q.
  Proof.
    unfold ensure_file_is_modifiable. intros H W Np O q.
    destruct (ensure_parent_exists lower st p) as [[u|e] st0] eqn:E; parent E W.
    2:{ injection H as _ <-. exact (parent_frame _ _ _ _ q E). }
    rewrite <- (parent_frame _ _ _ _ q E).
    destruct (loc_eqb_spec q p) as [->|N].
    2:{ apply (copy_frame _ _ _ _ _ q H W0 N). intros (i & X & _). congruence. }
    destruct (copy_to_effect _ _ _ _ _ H W0) as (E1 & E2 & E3 & E4 & E5).
    destruct r as [[]|e]; [|now rewrite (E5 e eq_refl)].
    destruct (E4 eq_refl) as (_ & _ & o & i & Uo & Oi & _ & Ci).
    apply visible_same; [now apply deleted_rows|].
    rewrite (oget_Some_lookup lower st1 p (OFile i) Np Oi). cbn [entry_of_overlay]. rewrite Ci.
    assert (oget (o_fs st0) p = None) as O0 by congruence.
    rewrite (oget_None_lookup lower st0 p Np O0).
    unfold union_open in Uo. destruct p as [|a p]; [congruence|]. rewrite O0 in Uo.
    destruct (lower (a :: p)) as [[|c|]|]; try discriminate. injection Uo as <-. reflexivity.
  Qed.

  Lemma in_overlay_false st p : in_overlay st p = false -> p <> [] /\ oget (o_fs st) p = None.
  Proof.
    unfold in_overlay. destruct p as [|a p]; [discriminate|]. destruct (oget (o_fs st) (a :: p)); [discriminate|].
    split; [discriminate|reflexivity].
  Qed.

  Theorem step_frame st o q : well_kept st -> ~ may_change st o q -> visible (snd (step st o)) q = visible st q.
  Proof.
    intros W N. destruct o; cbn [Overlay_Model.step may_change] in *.
    - unfold drop, create. cbn [snd].
      destruct (open_row lower st p mode) as [[u|e] st1] eqn:E; pose proof (open_row_effect _ _ _ _ _ E W) as (W1 & _ & _ & _ & Fl & _);
        [|apply (open_row_frame _ _ _ _ _ q E W); tauto].
      destruct (os_create st1 p) as [r st2] eqn:C. cbn [snd].
      rewrite (create_lookup_frame _ _ _ _ q C W1); [apply (open_row_frame _ _ _ _ _ q E W); tauto|tauto|].
      intros (i & H1 & H2). apply N; right; exists i. split; apply Fl; auto; discriminate.
    - unfold mkdir.
      destruct (open_row lower st p mode) as [[u|e] st1] eqn:E; [|exact (open_row_frame _ _ _ _ _ q E W N)].
      destruct (os_add st1 p ODir) as [r st2] eqn:C. cbn [snd]. rewrite (add_frame _ _ _ _ _ q C N).
      exact (open_row_frame _ _ _ _ _ q E W N).
    - unfold mknod. destruct (ensure_parent_exists lower st p) as [[u|e] st0] eqn:E; parent E W;
        [|exact (parent_frame _ _ _ _ q E)].
      rewrite <- (parent_frame _ _ _ _ q E).
      destruct (os_add st0 p (OFile (o_next st0))) as [[u'|e] st2] eqn:Ad; cbn [snd].
      + rewrite <- (add_frame _ _ _ _ _ q Ad N).
        destruct (os_add_effect _ _ _ _ _ Ad) as (E1 & E2 & E3 & E4 & _).
        apply visible_same; [reflexivity|]. apply lookup_same; [reflexivity|].
        intros i O. unfold content_of; cbn [o_ino]. apply upd_other. rewrite E4 in O by exact N.
        pose proof (proj1 W0 _ _ O). lia.
      + exact (add_frame _ _ _ _ _ q Ad N).
    - unfold symlink. destruct (os_add st target (OLink source)) as [r st2] eqn:C. exact (add_frame _ _ _ _ _ q C N).
    - unfold link. destruct (negb (in_overlay st source) && union_exists lower st source); [reflexivity|].
      destruct source as [|s0 source]; [reflexivity|].
      destruct (oget (o_fs st) (s0 :: source)) as [[|i|t]|] eqn:E; try reflexivity.
      + destruct (os_add st target (OFile i)) as [r st2] eqn:C. exact (add_frame _ _ _ _ _ q C N).
      + destruct (os_add st target (OLink t)) as [r st2] eqn:C. exact (add_frame _ _ _ _ _ q C N).
    - unfold unlink. destruct (negb (union_exists lower st p) || is_deleted st p); [now apply mark_other|].
      destruct (in_overlay st p); [|now apply mark_other].
      destruct (os_unlink st p) as [r st1] eqn:U. cbn [snd]. rewrite mark_other by exact N.
      destruct (os_unlink_effect _ _ _ _ U) as (E1 & E2 & E3 & E4 & _).
      apply visible_same; [now apply deleted_rows|]. apply lookup_same; [now apply E4|]. intros; now apply content_ino.
    - unfold rmdir. destruct (negb (union_exists lower st p) || is_deleted st p); [reflexivity|].
      destruct (negb (subset (union_names lower_names st p) (list_deleted st p))); [reflexivity|].
      destruct (in_overlay st p); [|now apply mark_other].
      destruct (os_rmdir st p) as [r st1] eqn:U. cbn [snd]. rewrite mark_other by exact N.
      destruct (os_rmdir_effect _ _ _ _ U) as (E1 & E2 & E3 & E4 & _).
      apply visible_same; [now apply deleted_rows|]. apply lookup_same; [now apply E4|]. intros; now apply content_ino.
    - destruct (rename lower attributes st old new) as [r st1] eqn:E. cbn [snd].
      apply (rename_frame _ _ _ _ _ q E W); tauto.
    - unfold truncate. destruct (ensure_file_is_modifiable lower st p) as [[u|e] st1] eqn:E;
        pose proof (modifiable_kept _ _ _ _ E W) as W1; [|apply (modifiable_frame _ _ _ _ q E W); tauto].
      rewrite <- (modifiable_frame _ _ _ _ q E W); [|tauto|tauto].
      unfold os_truncate. destruct (oget (o_fs st1) p) as [[|i|]|] eqn:O; try reflexivity. cbn [snd].
      apply visible_same; [reflexivity|]. apply lookup_same; [reflexivity|]. intros j Oj.
      rewrite content_set. destruct (Nat.eqb_spec i j) as [<-|]; [|reflexivity]. exfalso.
      (* the file of [p] is the one it had, or a new one *)
      unfold ensure_file_is_modifiable in E.
      destruct (ensure_parent_exists lower st p) as [[u'|e'] st0] eqn:P; [|discriminate]. parent P W.
      destruct (copy_to_effect _ _ _ _ _ E W0) as (E1 & E2 & E3 & E4 & E5). destruct u.
      destruct (E4 eq_refl) as (_ & _ & o & k & _ & Ok' & Old & _).
      assert (k = i) by congruence. subst k.
      destruct (loc_eqb_spec q p) as [->|Nq]; [tauto|]. rewrite E2 in Oj by exact Nq.
      destruct Old as [Old|[_ ->]].
      + apply N. right. exists i. split; apply Fl0; auto; discriminate.
      + pose proof (proj1 W0 _ _ Oj). lia.
    - unfold drop, open_overlay; cbn [snd]. destruct (in_overlay st p) eqn:I.
      + destruct p as [|a p]; [reflexivity|]. destruct (oget (o_fs st) (a :: p)) as [[| |]|]; reflexivity.
      + destruct (negb (union_exists lower st p)); [reflexivity|].
        apply in_overlay_false in I as [Np O].
        destruct (ensure_file_is_modifiable lower st p) as [[u|e] st1] eqn:E;
          pose proof (modifiable_self _ _ _ _ E W Np O q) as V; [|exact V].
        destruct p as [|a p]; [exact V|]. destruct (oget (o_fs st1) (a :: p)) as [[| |]|]; exact V.
    - apply visible_same; [reflexivity|]. apply lookup_same; [reflexivity|]. intros j Oj.
      cbn [write snd]. rewrite content_set. destruct (Nat.eqb_spec i j) as [<-|]; [tauto|reflexivity].
    - unfold set_attributes. destruct (row_for lower attributes st p) as [r|e] eqn:R; [|reflexivity].
      apply row_for_deleted in R.
      assert (forall r', r_deleted r' = r_deleted r -> visible (with_rows st (rset (o_rows st) p r')) q = visible st q) as K.
      { intros r' Er. apply visible_same; [|reflexivity]. unfold is_deleted in *; cbn [o_rows with_rows].
        rewrite rget_rset. destruct (loc_eqb_spec q p) as [->|]; [|reflexivity]. now rewrite Er, R. }
      destruct c as [m|[u|] [g|]|t]; apply K; reflexivity.
  Qed.

  (** ** What does not exist stays so until something creates it *)

  Lemma ensure_parent_deleted st p r st1 q : ensure_parent_exists lower st p = (r, st1) -> is_deleted st1 q = is_deleted st q.
  Proof. intros E. apply deleted_rows. exact (proj1 (ensure_parent_facts lower lower_names low _ _ _ _ E)). Qed.

  Lemma modifiable_rows st p r st1 : ensure_file_is_modifiable lower st p = (r, st1) -> well_kept st -> o_rows st1 = o_rows st.
  Proof.
    unfold ensure_file_is_modifiable. intros H W.
    destruct (ensure_parent_exists lower st p) as [[u|e] st0] eqn:E; parent E W.
    - destruct (copy_to_effect _ _ _ _ _ H W0) as (E1 & _). congruence.
    - injection H as _ <-. exact F1.
  Qed.

  Lemma rename_rows st old new r st1 q : rename lower attributes st old new = (r, st1) -> well_kept st ->
    q <> new -> (q <> old \/ is_deleted st old = true) -> is_deleted st1 q = is_deleted st q.
  Proof.
    unfold rename. intros H W N2 N1.
    destruct (negb (union_exists lower st old)); [now injection H as _ <-|]. cbn [orb] in H.
    destruct (is_deleted st old); [now injection H as _ <-|].
    destruct N1 as [N1|]; [|discriminate].
    set (st1' := with_rows st (rdel (o_rows st) new)) in *.
    assert (W1 : well_kept st1').
    { apply rows_kept; auto. apply NoDup_rdel. exact (proj1 (proj2 W)). }
    assert (V1 : is_deleted st1' q = is_deleted st q).
    { unfold is_deleted; cbn [o_rows with_rows st1']. now rewrite rget_rdel, loc_eqb_neq. }
    destruct (row_for lower attributes st1' old) as [r0|e]; [|now injection H as _ <-].
    set (st2 := with_rows st1' (rset (rdel (o_rows st1') old) new r0)) in *.
    assert (W2 : well_kept st2).
    { apply rows_kept; auto. apply NoDup_rset, NoDup_rdel. exact (proj1 (proj2 W1)). }
    assert (V2 : is_deleted st2 q = is_deleted st q).
    { rewrite <- V1. unfold is_deleted, st2; cbn [o_rows with_rows].
      now rewrite rget_rset, rget_rdel, !loc_eqb_neq. }
    destruct (ensure_parent_exists lower st2 new) as [[u|e] st3] eqn:E; parent E W2.
    2:{ injection H as _ <-. rewrite <- V2. exact (ensure_parent_deleted _ _ _ _ q E). }
    assert (V3 : is_deleted st3 q = is_deleted st q) by (rewrite <- V2; exact (ensure_parent_deleted _ _ _ _ q E)).
    rewrite <- V3.
    destruct (in_overlay st3 old).
    - destruct (os_rename_effect _ _ _ _ _ H W0) as (E1 & _). now apply deleted_rows.
    - destruct (copy_to lower st3 old new) as [[u'|e] st4] eqn:C; injection H as _ <-;
        destruct (copy_to_effect _ _ _ _ _ C W0) as (E1 & _).
      + unfold is_deleted. destruct (mark_effect st4 old) as (_ & _ & _ & Er). rewrite Er, loc_eqb_neq by exact N1.
        now rewrite E1.
      + now apply deleted_rows.
  Qed.

  Lemma marked_stays st o q : well_kept st -> is_deleted st q = true -> ~ may_create o q ->
    visible (snd (step st o)) q = None.
  Proof.
    intros W D N.
    assert (Hv : forall st', is_deleted st' q = true -> visible st' q = None).
    { intros st' D'. unfold Overlay_Model.visible. now rewrite D'. }
    destruct o; cbn [Overlay_Model.step may_create] in *.
    - apply Hv. unfold drop, create. cbn [snd].
      destruct (open_row lower st p mode) as [[u|e] st1] eqn:E;
        pose proof (open_row_effect _ _ _ _ _ E W) as (_ & _ & _ & _ & _ & _ & X & _); [|now rewrite X].
      destruct (os_create st1 p) as [r st2] eqn:C. cbn [snd].
      rewrite (deleted_rows st1 st2) by exact (proj1 (os_create_effect _ _ _ _ C)). now rewrite X.
    - apply Hv. unfold mkdir.
      destruct (open_row lower st p mode) as [[u|e] st1] eqn:E;
        pose proof (open_row_effect _ _ _ _ _ E W) as (_ & _ & _ & _ & _ & _ & X & _); [|now rewrite X].
      destruct (os_add st1 p ODir) as [r st2] eqn:C. cbn [snd].
      rewrite (deleted_rows st1 st2) by exact (proj1 (os_add_effect _ _ _ _ _ C)). now rewrite X.
    - assert (visible st q = None) as V by (unfold Overlay_Model.visible; now rewrite D). rewrite <- V.
      apply (step_frame st (OpMknod p) q W). exact N.
    - assert (visible st q = None) as V by (unfold Overlay_Model.visible; now rewrite D). rewrite <- V.
      apply (step_frame st (OpSymlink target source) q W). exact N.
    - assert (visible st q = None) as V by (unfold Overlay_Model.visible; now rewrite D). rewrite <- V.
      apply (step_frame st (OpLink target source) q W). exact N.
    - assert (visible st q = None) as V by (unfold Overlay_Model.visible; now rewrite D).
      destruct (loc_eqb_spec q p) as [->|Np].
      + unfold unlink. rewrite D, orb_true_r. apply mark_hides.
      + rewrite <- V. apply (step_frame st (OpUnlink p) q W). exact Np.
    - assert (visible st q = None) as V by (unfold Overlay_Model.visible; now rewrite D).
      destruct (loc_eqb_spec q p) as [->|Np].
      + unfold rmdir. rewrite D, orb_true_r. exact V.
      + rewrite <- V. apply (step_frame st (OpRmdir p) q W). exact Np.
    - apply Hv. destruct (rename lower attributes st old new) as [r st1] eqn:E. cbn [snd].
      rewrite (rename_rows _ _ _ _ _ q E W); auto.
      + intros ->; apply N; exists []; now rewrite app_nil_r.
      + destruct (loc_eqb_spec q old) as [->|]; auto.
    - apply Hv. unfold truncate. destruct (ensure_file_is_modifiable lower st p) as [[u|e] st1] eqn:E;
        pose proof (modifiable_rows _ _ _ _ E W) as R; cbn [snd].
      + unfold os_truncate. destruct (oget (o_fs st1) p) as [[| |]|]; cbn [snd];
          (unfold is_deleted in *; cbn [o_rows set_ino]; now rewrite R).
      + now rewrite (deleted_rows st st1).
    - assert (visible st q = None) as V by (unfold Overlay_Model.visible; now rewrite D).
      rewrite <- V. apply (step_frame st (OpOpenWrite p) q W). tauto.
    - apply Hv. exact D.
    - assert (visible st q = None) as V by (unfold Overlay_Model.visible; now rewrite D).
      rewrite <- V. apply (step_frame st (OpAttributes p c) q W). tauto.
  Qed.

  Lemma lookup_None st q : union_lookup st q = None -> q <> [] /\ oget (o_fs st) q = None /\ lower q = None.
  Proof.
    unfold Overlay_Model.union_lookup. destruct q as [|a q]; [discriminate|].
    destruct (oget (o_fs st) (a :: q)); [discriminate|]. destruct (lower (a :: q)); [discriminate|].
    intros _; repeat split; discriminate.
  Qed.

  Lemma absent_lookup st q : q <> [] -> oget (o_fs st) q = None -> lower q = None -> union_lookup st q = None.
  Proof. intros N O L. rewrite oget_None_lookup by assumption. now rewrite L. Qed.

  Lemma absent_visible st q : q <> [] -> oget (o_fs st) q = None -> lower q = None -> visible st q = None.
  Proof. intros. unfold Overlay_Model.visible. rewrite absent_lookup by assumption. now destruct (is_deleted st q). Qed.

  Lemma rename_absent st old new r st1 q : rename lower attributes st old new = (r, st1) -> well_kept st ->
    q <> [] -> oget (o_fs st) q = None -> lower q = None -> ~ at_or_below new q -> oget (o_fs st1) q = None.
  Proof.
    unfold rename. intros H W Nq O L N.
    destruct (negb (union_exists lower st old) || is_deleted st old); [now injection H as _ <-|].
    set (st1' := with_rows st (rdel (o_rows st) new)) in *.
    assert (W1 : well_kept st1').
    { apply rows_kept; auto. apply NoDup_rdel. exact (proj1 (proj2 W)). }
    destruct (row_for lower attributes st1' old) as [r0|e]; [|now injection H as _ <-].
    set (st2 := with_rows st1' (rset (rdel (o_rows st1') old) new r0)) in *.
    assert (W2 : well_kept st2).
    { apply rows_kept; auto. apply NoDup_rset, NoDup_rdel. exact (proj1 (proj2 W1)). }
    assert (O3 : forall r st3, ensure_parent_exists lower st2 new = (r, st3) -> oget (o_fs st3) q = None).
    { intros r' st3 E. parent E W2. destruct (F4 q) as [->|(_ & _ & _ & X & _)]; [exact O|congruence]. }
    destruct (ensure_parent_exists lower st2 new) as [[u|e] st3] eqn:E; parent E W2; specialize (O3 _ _ eq_refl);
      [|now injection H as _ <-].
    destruct (in_overlay st3 old).
    - destruct (os_rename_effect _ _ _ _ _ H W0) as (_ & _ & _ & _ & E5 & _).
      destruct (E5 q N) as [X|X]; rewrite X; auto.
    - destruct (copy_to lower st3 old new) as [[u'|e] st4] eqn:C; injection H as _ <-;
        destruct (copy_to_effect _ _ _ _ _ C W0) as (_ & E2 & _).
      + destruct (mark_effect st4 old) as (-> & _). rewrite E2; auto. now apply not_below_neq.
      + rewrite E2; auto. now apply not_below_neq.
  Qed.

  Theorem hidden_stays st o q : well_kept st -> visible st q = None -> ~ may_create o q ->
    visible (snd (step st o)) q = None.
  Proof.
    intros W V N. destruct (is_deleted st q) eqn:D; [now apply marked_stays|].
    assert (U : union_lookup st q = None) by (unfold Overlay_Model.visible in V; now rewrite D in V).
    destruct (lookup_None _ _ U) as (Nq & O & L).
    assert (NS : forall p, ~ same_file st p q) by (intros p (i & _ & X); congruence).
    destruct o; cbn [may_create] in N;
      try (rewrite <- V; apply step_frame; [exact W|]; cbn [may_change];
           first [tauto | intros [X|X]; [tauto|exact (NS _ X)]]).
    - (* unlink *) destruct (loc_eqb_spec q p) as [->|Np];
        [|rewrite <- V; apply step_frame; [exact W|exact Np]].
      cbn [Overlay_Model.step]. assert (X : union_exists lower st p = false) by (unfold union_exists; now rewrite U). unfold unlink. rewrite X. apply mark_hides.
    - (* rmdir *) destruct (loc_eqb_spec q p) as [->|Np];
        [|rewrite <- V; apply step_frame; [exact W|exact Np]].
      cbn [Overlay_Model.step]. assert (X : union_exists lower st p = false) by (unfold union_exists; now rewrite U). unfold rmdir. rewrite X. exact V.
    - (* rename *) cbn [Overlay_Model.step]. destruct (rename lower attributes st old new) as [r st1] eqn:E. cbn [snd].
      apply absent_visible; auto. exact (rename_absent _ _ _ _ _ q E W Nq O L N).
    - (* truncate *) destruct (loc_eqb_spec q p) as [->|Np].
      2:{ rewrite <- V. apply step_frame; [exact W|]. intros [X|X]; [congruence|exact (NS _ X)]. }
      cbn [Overlay_Model.step]. unfold truncate.
      destruct (ensure_file_is_modifiable lower st p) as [[u|e] st1] eqn:E; cbn [snd];
        pose proof (modifiable_self _ _ _ _ E W Nq O p) as X; [|congruence].
      exfalso. unfold ensure_file_is_modifiable in E.
      destruct (ensure_parent_exists lower st p) as [[u'|e'] st0] eqn:P; [|discriminate]. parent P W.
      unfold copy_to, union_open in E. destruct p as [|a p]; [congruence|]. rewrite Sf0, O, L in E. discriminate.
    - (* write *) rewrite <- V. apply step_frame; [exact W|]. cbn [may_change]. congruence.
  Qed.

  Theorem hidden_stays_run h : forall st q, well_kept st -> visible st q = None ->
    (forall o, In o h -> ~ may_create o q) -> visible (run zero lower lower_names attributes st h) q = None.
  Proof.
    induction h as [|o h IH]; intros st q W V N; [exact V|].
    apply (IH (snd (step st o)) q); [now apply step_kept| |intros o' I; apply N; now right].
    apply hidden_stays; auto. apply N; now left.
  Qed.
End Steps.
