(** Proofs about the write overlay. *)
From Coq Require Import Ascii String.
From Verif Require Import PyBase PyDict PyStr Path_Spec Overlay_Spec Overlay_Model.

Lemma loc_eqb_spec a b : reflect (a = b) (loc_eqb a b).
Proof. unfold loc_eqb. destruct (list_eq_dec _ a b); constructor; assumption. Qed.

Lemma loc_eqb_refl a : loc_eqb a a = true.
Proof. destruct (loc_eqb_spec a a); congruence. Qed.

Lemma loc_eqb_neq a b : a <> b -> loc_eqb a b = false.
Proof. destruct (loc_eqb_spec a b); congruence. Qed.

Lemma loc_prefix_spec p q : reflect (at_or_below p q) (loc_prefix p q).
Proof.
  revert q; induction p as [|a p IH]; intros q.
  - constructor. exists q; reflexivity.
  - destruct q as [|b q]; cbn.
    + constructor. intros [r H]; discriminate.
    + destruct (str_eqb_spec a b) as [->|N]; cbn.
      * destruct (IH q) as [H|H]; constructor.
        -- destruct H as [r ->]; exists r; reflexivity.
        -- intros [r E]; apply H; exists r. cbn in E; congruence.
      * constructor. intros [r E]; cbn in E; congruence.
Qed.

Lemma dget_filter_key {V} (d : list (location * V)) p q :
  dget loc_eqb (filter (fun e => negb (loc_eqb p (fst e))) d) q = if loc_eqb q p then None else dget loc_eqb d q.
Proof.
  induction d as [|[k v] d IH]; cbn.
  - now destruct (loc_eqb q p).
  - destruct (loc_eqb_spec p k) as [->|N]; cbn.
    + rewrite IH. destruct (loc_eqb q k); reflexivity.
    + rewrite IH. destruct (loc_eqb_spec q k) as [E|M].
      * subst. now rewrite (loc_eqb_neq k p) by congruence.
      * reflexivity.
Qed.

Lemma NoDup_keys_filter {V} (f : location * V -> bool) d : NoDup (map fst d) -> NoDup (map fst (filter f d)).
Proof.
  induction d as [|e d IH]; cbn; [auto|].
  intros H; inversion H as [|? ? N1 N2]; subst. destruct (f e); cbn; auto.
  constructor; auto. intros I; apply N1. apply in_map_iff in I as (x & E & I); apply filter_In in I as [I _].
  rewrite <- E; now apply in_map.
Qed.

(** Names below a folder of an association list. *)
Lemma rev_app_inv (q p : location) n r : rev q = n :: r -> p = rev r <-> q = p ++ [n].
Proof.
  intros E. assert (q = rev r ++ [n]) as Eq by (rewrite <- (rev_involutive q), E; reflexivity).
  split; [intros ->; exact Eq|]. intros E2; rewrite Eq in E2. apply app_inj_tail in E2 as [<- _]; reflexivity.
Qed.

Section Overlay.
  Context {A : Type}.
  Notation ostate := (@ostate A).
  Variable lower : location -> option (@lnode A).
  Variable lower_names : location -> list str.
  Hypothesis low : tree_like LDir lower lower_names.

  Implicit Types st : ostate.

  Lemma oget_oset fs p n q : oget (oset fs p n) q = if loc_eqb q p then Some n else oget fs q.
  Proof. apply (dget_dset loc_eqb loc_eqb_spec). Qed.
  Lemma oget_odel fs p q : oget (odel fs p) q = if loc_eqb q p then None else oget fs q.
  Proof. apply dget_filter_key. Qed.
  Lemma rget_rset rs p n q : rget (rset rs p n) q = if loc_eqb q p then Some n else rget rs q.
  Proof. apply (dget_dset loc_eqb loc_eqb_spec). Qed.
  Lemma rget_rdel rs p q : rget (rdel rs p) q = if loc_eqb q p then None else rget rs q.
  Proof. apply dget_filter_key. Qed.

  (** ** Listings *)

  Lemma In_overlay_names fs p n : In n (overlay_names fs p) <-> oget fs (p ++ [n]) <> None.
  Proof.
    unfold overlay_names, oget. rewrite in_flat_map. split.
    - intros ([q v] & I & H); cbn [fst] in H. destruct (rev q) as [|m r] eqn:E; [destruct H|].
      destruct (loc_eqb_spec p (rev r)) as [Ep|]; [|destruct H]. destruct H as [->|[]].
      apply (rev_app_inv q p n r E) in Ep. subst q.
      intros Hn. apply (dget_None loc_eqb loc_eqb_spec) in Hn. apply Hn.
      apply (in_map fst) in I. exact I.
    - intros H. destruct (dget loc_eqb fs (p ++ [n])) as [v|] eqn:E; [|congruence].
      apply (dget_Some_In loc_eqb loc_eqb_spec) in E. exists (p ++ [n], v); split; [exact E|].
      cbn [fst]. rewrite rev_app_distr; cbn. rewrite rev_involutive, loc_eqb_refl. now left.
  Qed.

  Lemma In_list_deleted st p n :
    NoDup (map fst (o_rows st)) -> In n (list_deleted st p) <-> is_deleted st (p ++ [n]) = true.
  Proof.
    intros ND. unfold list_deleted, is_deleted, rget. rewrite in_flat_map. split.
    - intros ([q v] & I & H); cbn [fst snd] in H. destruct (rev q) as [|m r] eqn:E; [destruct H|].
      destruct (loc_eqb_spec p (rev r)) as [Ep|]; [|destruct H].
      destruct (r_deleted v) eqn:D; [|destruct H]. destruct H as [->|[]].
      apply (rev_app_inv q p n r E) in Ep. subst q.
      now rewrite (NoDup_dget loc_eqb loc_eqb_spec _ _ v ND I).
    - intros H. destruct (dget loc_eqb (o_rows st) (p ++ [n])) as [v|] eqn:E; [|discriminate].
      apply (dget_Some_In loc_eqb loc_eqb_spec) in E. exists (p ++ [n], v); split; [exact E|].
      cbn [fst snd]. rewrite rev_app_distr; cbn. rewrite rev_involutive, loc_eqb_refl, H. now left.
  Qed.

  Lemma oget_None_lookup st p : p <> [] -> oget (o_fs st) p = None ->
    union_lookup lower st p = option_map entry_of_lower (lower p).
  Proof. intros N E. unfold union_lookup. destruct p; [congruence|]. now rewrite E. Qed.

  Lemma oget_Some_lookup st p n : p <> [] -> oget (o_fs st) p = Some n ->
    union_lookup lower st p = Some (entry_of_overlay st n).
  Proof. intros N E. unfold union_lookup. destruct p; [congruence|]. now rewrite E. Qed.

  Lemma snoc_nonempty (p : location) n : p ++ [n] <> [].
  Proof. destruct p; discriminate. Qed.

  Lemma In_union_names st p n : In n (union_names lower_names st p) <-> union_lookup lower st (p ++ [n]) <> None.
  Proof.
    unfold union_names. rewrite in_app_iff, In_overlay_names, (proj1 low).
    destruct (oget (o_fs st) (p ++ [n])) as [o|] eqn:E.
    - rewrite (oget_Some_lookup st _ o (snoc_nonempty p n) E). split; [discriminate|right; discriminate].
    - rewrite (oget_None_lookup st _ (snoc_nonempty p n) E). destruct (lower (p ++ [n])); cbn; split; try tauto.
      + intros _; discriminate.
      + intros _; left; discriminate.
  Qed.

  (** ** Creating parent folders does not show *)

  Lemma lower_dir_prefix p q : lower (p ++ q) = Some LDir -> p <> [] -> lower p = Some LDir.
  Proof.
    revert p; induction q as [|n q IH] using rev_ind; intros p H N; [now rewrite app_nil_r in H|].
    rewrite app_assoc in H.
    assert (lower ((p ++ q) ++ [n]) <> None) as Hn by congruence.
    apply (proj2 low) in Hn as [Hn|Hn].
    - destruct p; [congruence|discriminate].
    - exact (IH p Hn N).
  Qed.

  Lemma makedirs_facts todo : forall fs done fs',
    makedirs fs done todo = Some fs' ->
    forall q, oget fs' q = oget fs q \/
              (oget fs q = None /\ oget fs' q = Some ODir /\
               exists a b, todo = a ++ b /\ q = done ++ a /\ a <> []).
  Proof.
    induction todo as [|n todo IH]; intros fs done fs' H q; cbn in H.
    - injection H as <-; now left.
    - assert (forall fs0, makedirs fs0 (done ++ [n]) todo = Some fs' -> forall q,
                oget fs' q = oget fs0 q \/ (oget fs0 q = None /\ oget fs' q = Some ODir /\
                exists a b, n :: todo = a ++ b /\ q = done ++ a /\ a <> [])) as Step.
      { intros fs0 H0 q0. destruct (IH _ _ _ H0 q0) as [E|(E1 & E2 & a & b & Ea & Eq & Na)]; [now left|].
        right; repeat split; auto. exists (n :: a), b; repeat split; try discriminate; [now rewrite Ea|].
        rewrite Eq, <- app_assoc; reflexivity. }
      destruct (oget fs (done ++ [n])) as [[| |]|] eqn:E; try discriminate.
      + exact (Step _ H q).
      + destruct (Step _ H q) as [E1|(E1 & E2 & R)].
        * rewrite oget_oset in E1. destruct (loc_eqb_spec q (done ++ [n])) as [->|N]; [|now left].
          right; repeat split; auto. exists [n], todo; repeat split; discriminate.
        * rewrite oget_oset in E1. destruct (loc_eqb q (done ++ [n])); [discriminate|]. right; auto.
  Qed.

  Lemma makedirs_makes todo : forall fs done fs',
    makedirs fs done todo = Some fs' -> forall a b, todo = a ++ b -> a <> [] -> oget fs' (done ++ a) = Some ODir.
  Proof.
    induction todo as [|n todo IH]; intros fs done fs' H a b E N.
    - destruct a; [congruence|discriminate].
    - destruct a as [|m a]; [congruence|]. cbn in E; injection E as <- E. cbn in H.
      assert (forall fs0, makedirs fs0 (done ++ [n]) todo = Some fs' -> oget fs0 (done ++ [n]) = Some ODir ->
              oget fs' (done ++ n :: a) = Some ODir) as Step.
      { intros fs0 H0 D. destruct a as [|x a].
        - destruct (makedirs_facts _ _ _ _ H0 (done ++ [n])) as [->|(X & _)]; congruence.
        - replace (done ++ n :: x :: a) with ((done ++ [n]) ++ x :: a) by (rewrite <- app_assoc; reflexivity).
          apply (IH _ _ _ H0 _ b E); discriminate. }
      destruct (oget fs (done ++ [n])) as [[| |]|] eqn:D; try discriminate.
      + exact (Step _ H D).
      + apply (Step _ H). now rewrite oget_oset, loc_eqb_refl.
  Qed.

  (** What [ensure_parent_exists] may do. *)
  Lemma ensure_parent_facts st p r st1 : ensure_parent_exists lower st p = (r, st1) ->
    o_rows st1 = o_rows st /\ o_ino st1 = o_ino st /\ o_next st1 = o_next st /\
    forall q, oget (o_fs st1) q = oget (o_fs st) q \/
              (oget (o_fs st) q = None /\ oget (o_fs st1) q = Some ODir /\ q <> [] /\ lower q = Some LDir /\
               exists b, removelast p = q ++ b).
  Proof.
    unfold ensure_parent_exists.
    destruct (negb (in_overlay st (removelast p)) && union_is_dir lower st (removelast p)) eqn:C.
    2:{ injection 1 as _ <-; repeat split; auto. }
    apply andb_true_iff in C as [C1 C2].
    destruct (makedirs (o_fs st) [] (removelast p)) as [fs|] eqn:M; injection 1 as _ <-;
      [|repeat split; auto].
    cbn [o_rows o_ino o_next o_fs with_fs]. repeat split; auto. intros q.
    destruct (makedirs_facts _ _ _ _ M q) as [E|(E1 & E2 & a & b & Ea & Eq & Na)]; [now left|].
    right. cbn in Eq; subst a. repeat split; auto; [|exists b; exact Ea].
    unfold in_overlay in C1. unfold union_is_dir, union_lookup in C2.
    destruct (removelast p) as [|x l] eqn:P; [discriminate|].
    destruct (oget (o_fs st) (x :: l)) eqn:O; [discriminate|].
    destruct (lower (x :: l)) as [[| |]|] eqn:L; try discriminate.
    rewrite Ea in L. exact (lower_dir_prefix q b L Na).
  Qed.

  Lemma content_ino st st1 i : o_ino st1 = o_ino st -> content_of st1 i = content_of st i.
  Proof. unfold content_of; congruence. Qed.

  Lemma entry_ino st st1 n : o_ino st1 = o_ino st -> entry_of_overlay st1 n = entry_of_overlay st n.
  Proof. intros E; destruct n; cbn; auto. now rewrite (content_ino st st1 _ E). Qed.

  Lemma ensure_parent_lookup st p r st1 : ensure_parent_exists lower st p = (r, st1) ->
    forall q, union_lookup lower st1 q = union_lookup lower st q.
  Proof.
    intros H q. destruct (ensure_parent_facts _ _ _ _ H) as (_ & Ei & _ & F).
    destruct q as [|x q]; [reflexivity|]. unfold union_lookup.
    destruct (F (x :: q)) as [->|(E1 & E2 & _ & L & _)].
    - destruct (oget (o_fs st) (x :: q)); [|reflexivity]. now rewrite (entry_ino st st1 o Ei).
    - now rewrite E1, E2, L.
  Qed.

  Lemma ensure_parent_file st p r st1 : ensure_parent_exists lower st p = (r, st1) ->
    forall q n, n <> ODir -> oget (o_fs st1) q = Some n <-> oget (o_fs st) q = Some n.
  Proof.
    intros H q n N. destruct (ensure_parent_facts _ _ _ _ H) as (_ & _ & _ & F).
    destruct (F q) as [->|(E1 & E2 & _)]; [tauto|]. rewrite E1, E2. split; congruence.
  Qed.

  (** After a successful [ensure_parent_exists] the path itself is as before. *)
  Lemma removelast_shorter (p : location) b : p <> [] -> removelast p <> p ++ b.
  Proof.
    intros N E. destruct (exists_last N) as (l & x & ->). rewrite removelast_last in E.
    apply (f_equal (@length _)) in E. rewrite !app_length in E; cbn in E. lia.
  Qed.

  Lemma ensure_parent_self st p r st1 : ensure_parent_exists lower st p = (r, st1) -> oget (o_fs st1) p = oget (o_fs st) p.
  Proof.
    intros H. destruct (ensure_parent_facts _ _ _ _ H) as (_ & _ & _ & F).
    destruct (F p) as [E|(_ & _ & N & _ & b & E)]; [exact E|]. exfalso; exact (removelast_shorter p b N E).
  Qed.

  (** ** Well-formed states *)

  Definition well_kept st : Prop :=
    (forall p i, oget (o_fs st) p = Some (OFile i) -> i < o_next st) /\
    NoDup (map fst (o_rows st)) /\
    (forall p n, oget (o_fs st) (p ++ [n]) <> None -> overlay_is_dir st p = true).

  Lemma set_ino_kept st i c : well_kept st -> well_kept (set_ino st i c).
  Proof. intros H; exact H. Qed.

  Lemma rows_kept st rs : well_kept st -> NoDup (map fst rs) -> well_kept (with_rows st rs).
  Proof. intros (H1 & _ & H3) N; exact (conj H1 (conj N H3)). Qed.

  Lemma NoDup_rset rs p r : NoDup (map fst rs) -> NoDup (map fst (rset rs p r)).
  Proof. apply (NoDup_dset loc_eqb loc_eqb_spec). Qed.

  Lemma NoDup_rdel rs p : NoDup (map fst rs) -> NoDup (map fst (rdel rs p)).
  Proof. apply NoDup_keys_filter. Qed.

  Lemma ensure_parent_kept st p r st1 : ensure_parent_exists lower st p = (r, st1) -> well_kept st -> well_kept st1.
  Proof.
    intros H (W1 & W2 & W3). pose proof (ensure_parent_facts _ _ _ _ H) as (Er & Ei & En & F). split; [|split].
    - intros q i E. rewrite En. apply (W1 q).
      apply (ensure_parent_file _ _ _ _ H q (OFile i)); [discriminate|exact E].
    - now rewrite Er.
    - intros q n E.
      assert (forall x, overlay_is_dir st x = true -> overlay_is_dir st1 x = true) as Mono.
      { intros x. unfold overlay_is_dir. destruct x as [|a x]; [auto|].
        destruct (F (a :: x)) as [->|(_ & -> & _)]; auto. }
      unfold ensure_parent_exists in H.
      destruct (negb (in_overlay st (removelast p)) && union_is_dir lower st (removelast p)) eqn:C.
      2:{ injection H as _ <-. exact (W3 q n E). }
      destruct (makedirs (o_fs st) [] (removelast p)) as [fs|] eqn:M; injection H as _ <-; [|exact (W3 q n E)].
      cbn [o_fs with_fs] in *.
      destruct (makedirs_facts _ _ _ _ M (q ++ [n])) as [E1|(_ & _ & a & b & Ea & Eq & Na)].
      + rewrite E1 in E. apply Mono. exact (W3 q n E).
      + cbn in Eq. subst a. destruct q as [|x q]; [reflexivity|]. unfold overlay_is_dir; cbn [o_fs with_fs].
        change (x :: q) with ([] ++ x :: q).
        erewrite makedirs_makes; [reflexivity|exact M| |discriminate].
        instantiate (1 := n :: b). rewrite Ea, <- app_assoc. reflexivity.
  Qed.

  Lemma is_dir_oset st p n q x : in_overlay st p = false -> overlay_is_dir st q = true ->
    overlay_is_dir (mkO (oset (o_fs st) p n) (o_ino st) x (o_rows st)) q = true.
  Proof.
    unfold overlay_is_dir, in_overlay. destruct q as [|a q]; [auto|]. cbn [o_fs]. rewrite oget_oset.
    intros I. destruct (loc_eqb_spec (a :: q) p) as [<-|]; [|auto].
    destruct (oget (o_fs st) (a :: q)); [discriminate|]. discriminate.
  Qed.

  Lemma add_entry_kept st p n : well_kept st -> overlay_is_dir st (removelast p) = true -> in_overlay st p = false ->
    forall ino next, o_next st <= next -> (forall i, n = OFile i -> i < next) ->
    well_kept (mkO (oset (o_fs st) p n) ino next (o_rows st)).
  Proof.
    intros (W1 & W2 & W3) D I ino next Hn Hi.
    split; [|split; [exact W2|]].
    - intros q i. cbn [o_fs o_next]. rewrite oget_oset. destruct (loc_eqb_spec q p) as [->|N].
      + injection 1 as ->. now apply Hi.
      + intros E. specialize (W1 _ _ E). lia.
    - intros q m. cbn [o_fs]. rewrite oget_oset. destruct (loc_eqb_spec (q ++ [m]) p) as [<-|N]; intros E.
      + rewrite removelast_last in D. exact (is_dir_oset st (q ++ [m]) n q next I D).
      + exact (is_dir_oset st p n q next I (W3 q m E)).
  Qed.

  Lemma os_create_kept st p r st1 : os_create st p = (r, st1) -> well_kept st -> well_kept st1.
  Proof.
    unfold os_create. intros H W.
    destruct (overlay_is_dir st (removelast p)) eqn:D; cbn [negb] in H; [|now injection H as _ <-].
    destruct p as [|a p]; [now injection H as _ <-|].
    destruct (oget (o_fs st) (a :: p)) as [[| |]|] eqn:E; injection H as _ <-; auto.
    apply add_entry_kept; auto; [|intros i [= <-]; lia].
    unfold in_overlay; now rewrite E.
  Qed.

  Lemma os_add_kept st p n r st1 : os_add st p n = (r, st1) -> (forall i, n = OFile i -> i < o_next st) ->
    well_kept st -> well_kept st1.
  Proof.
    unfold os_add. intros H Hi W.
    destruct (overlay_is_dir st (removelast p)) eqn:D; cbn [negb] in H; [|now injection H as _ <-].
    destruct (in_overlay st p) eqn:I; injection H as _ <-; auto.
    apply (add_entry_kept st p n W D I); auto.
  Qed.

  Lemma is_dir_odel st p q : p <> q -> overlay_is_dir st q = true -> overlay_is_dir (with_fs st (odel (o_fs st) p)) q = true.
  Proof.
    unfold overlay_is_dir. destruct q as [|a q]; [auto|]. cbn [o_fs with_fs]. rewrite oget_odel.
    intros N. now rewrite loc_eqb_neq by congruence.
  Qed.

  (** Removing an entry with nothing below it. *)
  Lemma odel_kept st p : well_kept st -> (forall n, oget (o_fs st) (p ++ [n]) = None) ->
    well_kept (with_fs st (odel (o_fs st) p)).
  Proof.
    intros (W1 & W2 & W3) L. split; [|split; [exact W2|]].
    - intros q i; cbn [o_fs o_next with_fs]. rewrite oget_odel. destruct (loc_eqb q p); [discriminate|apply W1].
    - intros q m; cbn [o_fs with_fs]. rewrite oget_odel. destruct (loc_eqb (q ++ [m]) p); [congruence|]. intros E.
      apply is_dir_odel; [|exact (W3 q m E)]. intros <-. apply E, L.
  Qed.

  Lemma nondir_childless st p : well_kept st -> p <> [] -> oget (o_fs st) p <> Some ODir ->
    forall n, oget (o_fs st) (p ++ [n]) = None.
  Proof.
    intros (_ & _ & W3) Np N n. destruct (oget (o_fs st) (p ++ [n])) eqn:E; [|reflexivity].
    assert (overlay_is_dir st p = true) as D by (apply (W3 p n); congruence).
    unfold overlay_is_dir in D. destruct p; [congruence|].
    destruct (oget (o_fs st) (l :: p)) as [[| |]|]; congruence.
  Qed.

  Lemma os_unlink_kept st p r st1 : os_unlink st p = (r, st1) -> well_kept st -> well_kept st1.
  Proof.
    unfold os_unlink. intros H W. destruct p as [|a p]; [now injection H as _ <-|].
    destruct (oget (o_fs st) (a :: p)) as [[| |]|] eqn:E; injection H as _ <-; auto;
      apply odel_kept; auto; apply nondir_childless; auto; congruence.
  Qed.

  Lemma os_rmdir_kept st p r st1 : os_rmdir st p = (r, st1) -> well_kept st -> well_kept st1.
  Proof.
    unfold os_rmdir. intros H W. destruct (oget (o_fs st) p) as [[| |]|] eqn:E; try (injection H as _ <-; exact W).
    destruct (overlay_names (o_fs st) p) as [|x l] eqn:N; injection H as _ <-; [|exact W].
    apply odel_kept; auto. intros n. destruct (oget (o_fs st) (p ++ [n])) eqn:F; [|reflexivity].
    assert (In n (overlay_names (o_fs st) p)) as I by (apply In_overlay_names; congruence).
    rewrite N in I; destruct I.
  Qed.

  (** ** Renaming a folder of the overlay *)

  Lemma moved_below old new r n : moved old new (old ++ r, n) = (new ++ r, n).
  Proof.
    unfold moved; cbn [fst snd]. destruct (loc_prefix_spec old (old ++ r)) as [_|N].
    - now rewrite skipn_app, skipn_all, Nat.sub_diag.
    - exfalso; apply N; now exists r.
  Qed.

  Lemma moved_other old new q n : ~ at_or_below old q -> moved old new (q, n) = (q, n).
  Proof. unfold moved; cbn [fst]. destruct (loc_prefix_spec old q); tauto. Qed.

  Lemma oget_moved fs old new q : (forall k v, In (k, v) fs -> ~ at_or_below new k) ->
    oget (map (moved old new) fs) q =
    if loc_prefix new q then oget fs (old ++ skipn (length new) q)
    else if loc_prefix old q then None else oget fs q.
  Proof.
    induction fs as [|[k v] fs IH]; intros H.
    { cbn. now destruct (loc_prefix new q), (loc_prefix old q). }
    cbn [map]. unfold oget in *.
    assert (IH' : forall k v, In (k, v) fs -> ~ at_or_below new k) by (intros; eapply H; right; eauto).
    specialize (IH IH'). specialize (H k v (or_introl eq_refl)).
    destruct (loc_prefix_spec old k) as [[r ->]|N].
    - rewrite moved_below. cbn [dget]. rewrite IH.
      destruct (loc_prefix_spec new q) as [[s E0]|M].
      + subst q. rewrite skipn_app, skipn_all, Nat.sub_diag; cbn [app skipn].
        destruct (loc_eqb_spec (new ++ s) (new ++ r)) as [E|E].
        * apply app_inv_head in E; subst. now rewrite loc_eqb_refl.
        * rewrite loc_eqb_neq; [reflexivity|]. intros E2. apply app_inv_head in E2. congruence.
      + rewrite (loc_eqb_neq q (new ++ r)) by (intros ->; apply M; now exists r).
        destruct (loc_prefix_spec old q) as [_|O]; [reflexivity|].
        rewrite (loc_eqb_neq q (old ++ r)); [reflexivity|]. intros ->; apply O; now exists r.
    - rewrite moved_other by exact N. cbn [dget]. rewrite IH.
      destruct (loc_prefix_spec new q) as [[s E0]|M].
      + subst q. rewrite (loc_eqb_neq (new ++ s) k) by (intros <-; apply H; now exists s).
        rewrite (loc_eqb_neq (old ++ _) k); [reflexivity|]. intros <-; apply N; eexists; reflexivity.
      + destruct (loc_prefix_spec old q) as [O|_]; [|reflexivity].
        rewrite (loc_eqb_neq q k); [reflexivity|]. intros ->; tauto.
  Qed.

  (** Nothing of the overlay lies below something that is no folder there. *)
  Lemma nothing_below st p : well_kept st -> p <> [] ->
    (forall n, oget (o_fs st) (p ++ [n]) = None) -> forall r, r <> [] -> oget (o_fs st) (p ++ r) = None.
  Proof.
    intros W Np L r. induction r as [|x r IH] using rev_ind; [congruence|]. intros _.
    destruct r as [|y r]; [apply L|].
    rewrite app_assoc. apply nondir_childless; auto.
    - destruct p; [congruence|discriminate].
    - rewrite IH by discriminate. discriminate.
  Qed.

  Lemma no_key fs q : oget fs q = None -> forall v, ~ In (q, v) fs.
  Proof.
    intros H v I. apply (dget_None loc_eqb loc_eqb_spec) in H. apply H. apply (in_map fst) in I. exact I.
  Qed.

  Lemma loc_prefix_refl p : loc_prefix p p = true.
  Proof. destruct (loc_prefix_spec p p) as [|N]; [reflexivity|]. exfalso; apply N; exists []; now rewrite app_nil_r. Qed.

  Lemma at_or_below_snoc p q (n : str) : at_or_below p (q ++ [n]) -> at_or_below p q \/ p = q ++ [n].
  Proof.
    intros [r E]. destruct r as [|x r] using rev_ind; [rewrite app_nil_r in E; now right|].
    rewrite app_assoc in E. apply app_inj_tail in E as [-> _]. left; now exists r.
  Qed.

  Lemma moved_kept st fs old new : well_kept (with_fs st fs) -> old <> [] -> new <> [] ->
    oget fs old = Some ODir -> overlay_is_dir (with_fs st fs) (removelast new) = true ->
    ~ at_or_below old new -> (forall r, oget fs (new ++ r) = None) ->
    well_kept (with_fs st (map (moved old new) fs)).
  Proof.
    intros (W1 & W2 & W3) No Nn Ho Dn NB Free.
    assert (G : forall q, oget (map (moved old new) fs) q =
      if loc_prefix new q then oget fs (old ++ skipn (length new) q) else if loc_prefix old q then None else oget fs q).
    { intros q. apply oget_moved. intros k v I [r ->]. exact (no_key fs _ (Free r) v I). }
    split; [|split; [exact W2|]]; cbn [o_fs o_next with_fs] in *.
    - intros q i. rewrite G. destruct (loc_prefix new q); [apply W1|]. destruct (loc_prefix old q); [discriminate|apply W1].
    - intros q m. rewrite G.
      destruct (loc_prefix_spec new (q ++ [m])) as [B|B].
      + intros E. destruct (at_or_below_snoc _ _ _ B) as [[r ->]|En].
        * rewrite <- app_assoc, skipn_app, skipn_all, Nat.sub_diag in E; cbn [app skipn] in E.
          unfold overlay_is_dir; cbn [o_fs with_fs].
          destruct (new ++ r) as [|a l] eqn:Enr; [destruct new; [congruence|discriminate]|].
          rewrite <- Enr, G. destruct (loc_prefix_spec new (new ++ r)) as [_|Nb]; [|exfalso; apply Nb; now exists r].
          rewrite skipn_app, skipn_all, Nat.sub_diag; cbn [app skipn].
          rewrite app_assoc in E. specialize (W3 _ _ E). unfold overlay_is_dir in W3; cbn [o_fs with_fs] in W3.
          destruct (old ++ r) as [|b l'] eqn:Eor; [destruct old; [congruence|discriminate]|]. exact W3.
        * subst new. rewrite removelast_last in *. revert Dn. unfold overlay_is_dir; cbn [o_fs with_fs].
          destruct q as [|a q]; [auto|]. rewrite G.
          destruct (loc_prefix_spec ((a :: q) ++ [m]) (a :: q)) as [[r Er]|_].
          { apply (f_equal (@length _)) in Er. rewrite !app_length in Er; cbn in Er. lia. }
          destruct (loc_prefix_spec old (a :: q)) as [[r Er]|_]; [|auto].
          exfalso; apply NB. exists (r ++ [m]). rewrite app_assoc, <- Er. reflexivity.
      + destruct (loc_prefix_spec old (q ++ [m])) as [O|O]; [congruence|]. intros E. specialize (W3 _ _ E).
        unfold overlay_is_dir in *; cbn [o_fs with_fs] in *. destruct q as [|a q]; [reflexivity|].
        rewrite G.
        destruct (loc_prefix_spec new (a :: q)) as [[r Er]|_];
          [exfalso; apply B; exists (r ++ [m]); rewrite app_assoc, <- Er; reflexivity|].
        destruct (loc_prefix_spec old (a :: q)) as [[r Er]|_];
          [exfalso; apply O; exists (r ++ [m]); rewrite app_assoc, <- Er; reflexivity|]. exact W3.
  Qed.

  Lemma with_fs_twice st fs fs' : with_fs (with_fs st fs) fs' = with_fs st fs'.
  Proof. reflexivity. Qed.

  Lemma os_rename_kept st old new r st1 : os_rename st old new = (r, st1) ->
    well_kept st -> well_kept st1.
  Proof.
    unfold os_rename. intros H W.
    destruct (loc_eqb_spec old []) as [|No]; [now injection H as _ <-|].
    destruct (loc_eqb_spec new []) as [|Nn]; [now injection H as _ <-|]. cbn [orb] in H.
    destruct (oget (o_fs st) old) as [n|] eqn:Eo; [|now injection H as _ <-].
    destruct (overlay_is_dir st (removelast new)) eqn:D; cbn [negb] in H; [|now injection H as _ <-].
    destruct (loc_eqb_spec old new) as [->|Ne]; [now injection H as _ <-|].
    assert (Hfile : n <> ODir -> oget (o_fs st) new <> Some ODir ->
                    well_kept (with_fs st (oset (odel (odel (o_fs st) old) new) new n))).
    { intros Nd Nnd.
      assert (W1 : well_kept (with_fs st (odel (o_fs st) old))).
      { apply odel_kept; auto. apply nondir_childless; auto. congruence. }
      assert (W2 : well_kept (with_fs st (odel (odel (o_fs st) old) new))).
      { apply (odel_kept (with_fs st (odel (o_fs st) old)) new W1).
        apply nondir_childless; auto. cbn [o_fs with_fs]. rewrite oget_odel. now destruct (loc_eqb new old). }
      apply (add_entry_kept (with_fs st (odel (odel (o_fs st) old) new)) new n W2).
      - apply (is_dir_odel (with_fs st (odel (o_fs st) old)) new).
        + intros E. destruct (exists_last Nn) as (l & x & ->). rewrite removelast_last in E.
          apply (f_equal (@length _)) in E. rewrite app_length in E; cbn in E; lia.
        + apply is_dir_odel; auto. intros ->. unfold overlay_is_dir in D.
          destruct (removelast new); [congruence|]. rewrite Eo in D. destruct n; congruence.
      - unfold in_overlay; cbn [o_fs with_fs]. destruct new; [congruence|]. now rewrite oget_odel, loc_eqb_refl.
      - reflexivity.
      - intros i ->. exact (proj1 W _ _ Eo). }
    destruct n as [|i|t].
    - destruct (loc_prefix_spec old new) as [B|B]; [now injection H as _ <-|].
      destruct (oget (o_fs st) new) as [[| |]|] eqn:En; try (now injection H as _ <-).
      + destruct (overlay_names (o_fs st) new) as [|x l] eqn:Names; [|now injection H as _ <-].
        injection H as _ <-.
        assert (L : forall n, oget (o_fs st) (new ++ [n]) = None).
        { intros n. destruct (oget (o_fs st) (new ++ [n])) eqn:F; [|reflexivity].
          assert (In n (overlay_names (o_fs st) new)) as I by (apply In_overlay_names; congruence).
          rewrite Names in I; destruct I. }
        apply (moved_kept st (odel (o_fs st) new)); auto.
        * now apply odel_kept.
        * rewrite oget_odel, loc_eqb_neq by congruence. exact Eo.
        * apply is_dir_odel; auto. intros E. destruct (exists_last Nn) as (l & x & ->). rewrite removelast_last in E.
          apply (f_equal (@length _)) in E. rewrite app_length in E; cbn in E; lia.
        * intros s. rewrite oget_odel. destruct (loc_eqb_spec (new ++ s) new) as [|Ns]; [reflexivity|].
          apply nothing_below; auto. intros ->; apply Ns, app_nil_r.
      + injection H as _ <-. apply (moved_kept st (o_fs st)); auto.
        intros s. destruct s as [|x s]; [now rewrite app_nil_r|].
        apply nothing_below; auto; [|discriminate]. apply nondir_childless; auto. congruence.
    - destruct (oget (o_fs st) new) as [[| |]|] eqn:En; injection H as _ <-; auto; apply Hfile; congruence.
    - destruct (oget (o_fs st) new) as [[| |]|] eqn:En; injection H as _ <-; auto; apply Hfile; congruence.
  Qed.
End Overlay.
