From Coq Require Import Ascii String.
From Verif Require Import PyBase PyDict PyStr Path_Model Union_Model Layers_Model Layers_Spec.

Lemma set_length h r s : length (set_cell h r s) = length h.
Proof. revert r. induction h as [|x h IH]; intros [|r]; cbn; auto. Qed.
Lemma cell_set_same h r s : (r < length h)%nat -> cell (set_cell h r s) r = s.
Proof. unfold cell. revert r. induction h as [|x h IH]; intros [|r] H; cbn in *; try lia; [reflexivity|]. apply IH. lia. Qed.
Lemma cell_set_other h r s q : q <> r -> cell (set_cell h r s) q = cell h q.
Proof. unfold cell. revert r q. induction h as [|x h IH]; intros [|r] [|q] H; cbn; auto; try congruence. Qed.
Lemma cell_snoc_last h s : cell (h ++ [s]) (length h) = s.
Proof. unfold cell. rewrite app_nth2 by lia. now rewrite Nat.sub_diag. Qed.
Lemma cell_snoc_old h s r : (r < length h)%nat -> cell (h ++ [s]) r = cell h r.
Proof. unfold cell. intros H. now rewrite app_nth1. Qed.

Lemma unchanged_refl h : unchanged h h.
Proof. split; auto. Qed.
Lemma unchanged_trans h1 h2 h3 : unchanged h1 h2 -> unchanged h2 h3 -> unchanged h1 h3.
Proof. intros [L1 H1] [L2 H2]. split; [lia|]. intros r Hr. rewrite H2 by lia. auto. Qed.
(** Pop, work on the inner layer, push back. *)
Lemma unchanged_restore h r v s h2 : (r < length h)%nat -> cell h r = v :: s -> unchanged (set_cell h r s) h2 ->
  unchanged h (set_cell h2 r (v :: cell h2 r)).
Proof.
  intros Hr Hc [L H]. rewrite set_length in *. split; [now rewrite set_length|]. intros q Hq.
  destruct (Nat.eq_dec q r) as [->|N].
  - rewrite cell_set_same by lia. rewrite H by assumption. rewrite cell_set_same by assumption. now symmetry.
  - rewrite cell_set_other by assumption. rewrite H by assumption. now rewrite cell_set_other.
Qed.
(** Clone and work on the clone. *)
Lemma unchanged_clone h s0 s h2 : unchanged (set_cell (h ++ [s0]) (length h) s) h2 -> unchanged h h2.
Proof.
  intros [L H]. rewrite set_length, app_length in *. cbn in *. split; [lia|]. intros q Hq. rewrite H by lia.
  rewrite cell_set_other by lia. now apply cell_snoc_old.
Qed.

Section Proofs.
  Variables (is_directory_info : nat -> list value -> bool).
  Notation get_ms := (get_ms is_directory_info).

  Lemma get_ms_unchanged fuel : forall l h r, (r < length h)%nat ->
    unchanged h (snd (get_ms fuel l h r)) /\
    forall p l' r', fst (get_ms fuel l h r) = Ok (p, l', r') ->
      (r' < length (snd (get_ms fuel l h r)))%nat /\ incl (cell (snd (get_ms fuel l h r)) r') (cell h r).
  Proof.
    assert (Hsame : forall h r (l : layer), (r < length h)%nat -> unchanged h h /\ forall p l' r', @Ok (str * layer * nat) ($"/", l, r) = Ok (p, l', r') ->
       (r' < length h)%nat /\ incl (cell h r') (cell h r)).
    { intros h r l Hr. split; [apply unchanged_refl|]. intros p l' r' E. injection E as _ _ <-. split; [assumption|apply incl_refl]. }
    assert (Herr : forall h h2 (S : list value) e, unchanged h h2 -> unchanged h h2 /\ forall p l' r', @Err (str * layer * nat) e = Ok (p, l', r') -> (r' < length h2)%nat /\ incl (cell h2 r') S).
    { intros h h2 S e Hu. split; [exact Hu|]. intros p l' r' E. discriminate. }
    assert (Hcl : forall h r s (l : layer), (r < length h)%nat -> let h2 := set_cell (h ++ [cell h r]) (length h) s in
       unchanged h h2 /\ forall p l' r', @Ok (str * layer * nat) ($"/", l, r) = Ok (p, l', r') -> (r' < length h2)%nat /\ incl (cell h2 r') (cell h r)).
    { intros h r s l Hr h2. assert (Hu : unchanged h h2) by (apply (unchanged_clone h (cell h r) s); apply unchanged_refl).
      split; [exact Hu|]. intros p l' r' E. injection E as _ _ <-. destruct Hu as [L Hu]. split; [lia|]. rewrite Hu by assumption. apply incl_refl. }
    induction fuel as [|fuel IH]; intros l h r Hr; [apply Herr, unchanged_refl|].
    assert (Hinner : forall l' s, incl s (cell h r) ->
      let h2 := set_cell (h ++ [cell h r]) (length h) s in
      unchanged h (snd (get_ms fuel l' h2 (length h))) /\
      forall p l2 r2, fst (get_ms fuel l' h2 (length h)) = Ok (p, l2, r2) -> (r2 < length (snd (get_ms fuel l' h2 (length h))))%nat /\ incl (cell (snd (get_ms fuel l' h2 (length h))) r2) (cell h r)).
    { intros l' s Hs h2. assert (Hl : (length h < length h2)%nat) by (unfold h2; rewrite set_length, app_length; cbn; lia).
      destruct (IH l' h2 (length h) Hl) as [I1 I2]. split; [now apply (unchanged_clone h (cell h r) s)|].
      intros p l2 r2 E. destruct (I2 p l2 r2 E) as [J1 J2]. split; [assumption|]. intros x Hx. apply J2 in Hx.
      unfold h2 in Hx. rewrite cell_set_same in Hx by (rewrite app_length; cbn; lia). auto. }
    destruct l as [i| |inner|table|mounted|id inner]; cbn [Layers_Model.get_ms clone fst snd].
    - apply Hsame; assumption.
    - rewrite cell_snoc_last. destruct (cell h r) as [|v s] eqn:Ec.
      + apply Herr. cbn [snd]. split; [rewrite app_length; lia|]. intros q Hq. now apply cell_snoc_old.
      + rewrite <- Ec in *. destruct v as [l'| | |n|n]; try (apply Hcl; assumption).
        apply Hinner. rewrite Ec. intros x Hx; now right.
    - destruct (cell h r) as [|v s] eqn:Ec; [apply Herr, unchanged_refl|].
      assert (G : forall (x : res (str * layer * nat)) h2, unchanged (set_cell h r s) h2 ->
        (forall p l' r', x = Ok (p, l', r') -> (r' < length h2)%nat /\ incl (cell h2 r') s) ->
        unchanged h (set_cell h2 r (v :: cell h2 r)) /\
        forall p (l' : layer) r', x = Ok (p, l', r') -> (r' < length (set_cell h2 r (v :: cell h2 r)))%nat /\ incl (cell (set_cell h2 r (v :: cell h2 r)) r') (v :: s)).
      { intros x h2 Hu Hx. split; [now apply (unchanged_restore h r v s)|]. intros p l' r' E. destruct (Hx p l' r' E) as [J1 J2].
        rewrite set_length. split; [assumption|]. destruct (Nat.eq_dec r' r) as [->|N].
        - rewrite cell_set_same by assumption. intros y [->|Hy]; [now left|right; auto].
        - rewrite cell_set_other by assumption. intros y Hy. right. auto. }
      assert (Hl1 : (r < length (set_cell h r s))%nat) by now rewrite set_length.
      assert (Hc1 : cell (set_cell h r s) r = s) by now apply cell_set_same.
      destruct v as [l'| | |n|n];
        try (destruct (IH inner (set_cell h r s) r Hl1) as [I1 I2]; destruct (get_ms fuel inner (set_cell h r s) r) as [x h2];
             cbn [fst snd] in *; rewrite Hc1 in I2; exact (G x h2 I1 I2)).
      apply (G (Ok ($"/", LVersion inner, r)) (set_cell h r s) (unchanged_refl _)). intros p l' r' E. injection E as _ _ <-.
      rewrite Hc1. split; [assumption|apply incl_refl].
    - rewrite cell_snoc_last. destruct (cell h r) as [|v s] eqn:Ec.
      + apply Herr. cbn [snd]. split; [rewrite app_length; lia|]. intros q Hq. now apply cell_snoc_old.
      + rewrite <- Ec in *. destruct v as [l'| | |[n|]|n]; try (apply Hcl; assumption).
        destruct (dget str_eqb table n) as [[l'|]|].
        * destruct (Hinner l' s) as [I1 I2]; [rewrite Ec; intros x Hx; now right|].
          destruct (get_ms fuel l' (set_cell (h ++ [cell h r]) (length h) s) (length h)) as [x h3]. cbn [fst snd] in *. split; [assumption|].
          intros p l2 r2 E. destruct x as [[[p' l3] r3]|e]; [|discriminate]. cbn in E. injection E as _ <- <-. eapply I2. reflexivity.
        * apply Herr. apply (unchanged_clone h (cell h r) s). apply unchanged_refl.
        * apply Hcl; assumption.
    - destruct (cell h r) as [|v s] eqn:Ec; [apply Herr, unchanged_refl|].
      destruct v as [l'| | |[n|]|n]; try apply Herr, unchanged_refl.
      destruct (dget str_eqb mounted n) as [l'|]; [|apply Herr, unchanged_refl].
      replace (tl (cell (h ++ [VName (Some n) :: s]) (length h))) with s by now rewrite cell_snoc_last.
      rewrite <- Ec in *. destruct (Hinner l' s) as [I1 I2]; [rewrite Ec; intros x Hx; now right|].
      destruct (get_ms fuel l' (set_cell (h ++ [cell h r]) (length h) s) (length h)) as [x h3]. cbn [fst snd] in *. split; [assumption|].
      intros p l2 r2 E. destruct x as [[[p' l3] r3]|e]; [|discriminate]. cbn in E. injection E as _ <- <-. eapply I2. reflexivity.
    - destruct (is_directory_info id (cell h r)); [apply Hsame; assumption|apply IH; assumption].
  Qed.

  (** ** Reaching the owner *)
  Lemma get_ms_owner l s l' s' : belongs is_directory_info l s l' s' -> ~ In VFile s ->
    exists N, forall fuel, (N <= fuel)%nat -> forall h r, (r < length h)%nat -> cell h r = s ->
    exists p r', fst (get_ms fuel l h r) = Ok (p, l', r') /\ cell (snd (get_ms fuel l h r)) r' = s'.
  Proof.
    intros B. induction B as [i s|l s l' s' B IH|inner s l' s' B IH|table n l s l' s' Hg B IH|mounted n l s l' s' Hg B IH|id inner s l' s' Hd B IH]; intros Hv.
    - exists 1%nat. intros [|fuel] Hf h r Hr Hc; [lia|]. exists $"/", r. split; [reflexivity|exact Hc].
    - destruct IH as [N IH]; [intros H; apply Hv; now right|]. exists (S N). intros [|fuel] Hf h r Hr Hc; [lia|].
      cbn [Layers_Model.get_ms clone]. rewrite cell_snoc_last, Hc. apply IH; [lia|rewrite set_length, app_length; cbn; lia|].
      apply cell_set_same. rewrite app_length; cbn; lia.
    - exfalso. apply Hv. now left.
    - destruct IH as [N IH]; [intros H; apply Hv; now right|]. exists (S N). intros [|fuel] Hf h r Hr Hc; [lia|].
      cbn [Layers_Model.get_ms clone]. rewrite cell_snoc_last, Hc, Hg.
      destruct (IH fuel ltac:(lia) (set_cell (h ++ [VName (Some n) :: s]) (length h) s) (length h)) as (p & r' & E1 & E2);
        [rewrite set_length, app_length; cbn; lia|apply cell_set_same; rewrite app_length; cbn; lia|].
      destruct (get_ms fuel l _ _) as [x h3]. cbn [fst snd] in *. rewrite E1. cbn. eexists _, r'. split; [reflexivity|assumption].
    - destruct IH as [N IH]; [intros H; apply Hv; now right|]. exists (S N). intros [|fuel] Hf h r Hr Hc; [lia|].
      cbn [Layers_Model.get_ms clone]. rewrite Hc, Hg, cell_snoc_last. cbn [tl].
      destruct (IH fuel ltac:(lia) (set_cell (h ++ [VName (Some n) :: s]) (length h) s) (length h)) as (p & r' & E1 & E2);
        [rewrite set_length, app_length; cbn; lia|apply cell_set_same; rewrite app_length; cbn; lia|].
      destruct (get_ms fuel l _ _) as [x h3]. cbn [fst snd] in *. rewrite E1. cbn. eexists _, r'. split; [reflexivity|assumption].
    - destruct (IH Hv) as [N IH']. exists (S N). intros [|fuel] Hf h r Hr Hc; [lia|]. cbn [Layers_Model.get_ms]. rewrite Hc, Hd. apply IH'; [lia|assumption|assumption].
  Qed.

  Context {payload : Type}.
  Variables (no_attributes no_value : payload) (leaf : nat -> op -> list value -> res payload).
  Variable is_root_info : list (str * layer) -> list value -> bool.
  Notation exec := (exec payload no_attributes no_value leaf is_directory_info is_root_info).

  Lemma exec_unchanged fuel : forall o l h r, (r < length h)%nat -> ~ In (VName None) (cell h r) -> unchanged h (snd (exec fuel o l h r)).
  Proof.
    induction fuel as [|fuel IH]; intros o l h r Hr Hn; [apply unchanged_refl|].
    assert (G : forall v s x h2, cell h r = v :: s -> unchanged (set_cell h r s) h2 ->
      unchanged h (snd (let '(x', h2') := (x : res payload, h2) in (x', set_cell h2' r (v :: cell h2' r))))).
    { intros v s x h2 Hc Hu. cbn [snd]. now apply (unchanged_restore h r v s). }
    assert (Gi : forall v s l', cell h r = v :: s ->
      unchanged h (snd (let '(x', h2') := exec fuel o l' (set_cell h r s) r in (x', set_cell h2' r (v :: cell h2' r))))).
    { intros v s l' Hc. destruct (exec fuel o l' (set_cell h r s) r) as [x h2] eqn:E. apply (G v s x h2 Hc).
      change h2 with (snd (x, h2)). rewrite <- E. apply IH; [now rewrite set_length|]. rewrite cell_set_same by assumption. intros Hi.
      apply Hn. rewrite Hc. now right. }
    destruct l as [i| |inner|table|mounted|id inner]; cbn [Layers_Model.exec].
    - apply unchanged_refl.
    - destruct (cell h r) as [|v s] eqn:Ec; [apply unchanged_refl|].
      destruct v as [l'| | |n|n]; [apply Gi; reflexivity|..]; (eapply G; [reflexivity|apply unchanged_refl]).
    - destruct (cell h r) as [|v s] eqn:Ec; [apply unchanged_refl|].
      destruct o; destruct v as [l'| | |n|n]; try (apply Gi; reflexivity); (eapply G; [reflexivity|apply unchanged_refl]).
    - destruct (cell h r) as [|v s] eqn:Ec; [apply unchanged_refl|].
      assert (Hv : v <> VName None) by (intros ->; apply Hn; now left).
      destruct o; destruct v as [l'| | |[n|]|n]; try congruence; try ((eapply G; [reflexivity|apply unchanged_refl]));
        (destruct (dget str_eqb table n) as [[l'|]|]; [apply Gi; reflexivity|(eapply G; [reflexivity|apply unchanged_refl])|(eapply G; [reflexivity|apply unchanged_refl])]).
    - assert (Gv : unchanged h (snd (let '(x, h1) := get_ms fuel (LAuto mounted) h r in
          match x with Err e => (Err e, h1) | Ok (_, l', r') => exec fuel o l' h1 r' end))).
      { destruct (get_ms_unchanged fuel (LAuto mounted) h r Hr) as [I1 I2]. destruct (get_ms fuel (LAuto mounted) h r) as [x h1]. cbn [fst snd] in *.
        destruct x as [[[p l'] r']|e]; [|exact I1]. destruct (I2 p l' r' eq_refl) as [J1 J2]. apply (unchanged_trans h h1); [exact I1|].
        apply IH; [assumption|]. intros Hi. apply Hn. auto. }
      destruct o; try exact Gv; (destruct (cell h r) as [|v s] eqn:Ec; [apply unchanged_refl|]); destruct v as [l'| | |[n|]|n]; try apply unchanged_refl;
        (destruct (dget str_eqb mounted n); [|apply unchanged_refl]); (destruct (is_root_info mounted _); [apply unchanged_refl|exact Gv]).
    - destruct (is_directory_info id (cell h r)); [apply unchanged_refl|]. apply IH; assumption.
  Qed.

  Definition opens (o : op) : Prop := match o with OpOpen _ | OpRead _ _ => True | _ => False end.

  Lemma belongs_leaf l s l' s' : belongs is_directory_info l s l' s' -> exists i, l' = LLeaf i.
  Proof. induction 1; eauto. Qed.

  Lemma exec_owner o l s i s' : opens o -> belongs is_directory_info l s (LLeaf i) s' -> ~ In VFile (tl s) ->
    exists N, forall fuel, (N <= fuel)%nat -> forall h r, (r < length h)%nat -> cell h r = s -> fst (exec fuel o l h r) = leaf i o s'.
  Proof.
    intros Ho B. remember (LLeaf i) as l' eqn:El.
    assert (Htl : forall (v : value) s, ~ In VFile (tl (v :: s)) -> ~ In VFile (tl s)).
    { intros v s0 H Hi. apply H. cbn. destruct s0; [destruct Hi|now right]. }
    induction B as [j s|l s l' s' B IH|inner s l' s' B IH|table n l s l' s' Hg B IH|mounted n l s l' s' Hg B IH|id inner s l' s' Hd B IH]; intros Hv.
    - injection El as ->. exists 1%nat. intros [|fuel] Hf h r Hr Hc; [lia|]. cbn. now rewrite Hc.
    - destruct (IH El (Htl _ _ Hv)) as [N IH']. exists (S N). intros [|fuel] Hf h r Hr Hc; [lia|]. cbn [Layers_Model.exec]. rewrite Hc.
      specialize (IH' fuel ltac:(lia) (set_cell h r s) r). destruct (exec fuel o l (set_cell h r s) r) as [x h2]. cbn [fst] in *.
      apply IH'; [now rewrite set_length|now apply cell_set_same].
    - destruct (IH El (Htl _ _ Hv)) as [N IH']. exists (S N). intros [|fuel] Hf h r Hr Hc; [lia|]. cbn [Layers_Model.exec]. rewrite Hc.
      specialize (IH' fuel ltac:(lia) (set_cell h r s) r).
      destruct o; try contradiction; (destruct (exec fuel _ inner (set_cell h r s) r) as [x h2]; cbn [fst] in *; apply IH'; [now rewrite set_length|now apply cell_set_same]).
    - destruct (IH El (Htl _ _ Hv)) as [N IH']. exists (S N). intros [|fuel] Hf h r Hr Hc; [lia|]. cbn [Layers_Model.exec]. rewrite Hc, Hg.
      specialize (IH' fuel ltac:(lia) (set_cell h r s) r).
      destruct o; try contradiction; (destruct (exec fuel _ l (set_cell h r s) r) as [x h2]; cbn [fst] in *; apply IH'; [now rewrite set_length|now apply cell_set_same]).
    - assert (B2 : belongs is_directory_info (LAuto mounted) (VName (Some n) :: s) l' s') by now apply BAuto with l.
      subst l'. destruct (get_ms_owner _ _ _ _ B2) as [N HN].
      { intros [H|H]; [discriminate|]. apply Hv. exact H. }
      exists (S (S N)). intros [|fuel] Hf h r Hr Hc; [lia|]. cbn [Layers_Model.exec].
      destruct (HN fuel ltac:(lia) h r Hr Hc) as (p & r' & E1 & E2).
      assert (E : forall o', fst (let '(x, h1) := get_ms fuel (LAuto mounted) h r in match x with Err e => (Err e, h1) | Ok (_, l'', r'') => exec fuel o' l'' h1 r'' end) = leaf i o' s').
      { intros o'. destruct (get_ms fuel (LAuto mounted) h r) as [x h1]. cbn [fst snd] in *. rewrite E1. destruct fuel as [|fuel]; [lia|]. cbn. now rewrite E2. }
      destruct o; try contradiction; apply E.
    - destruct (IH El Hv) as [N IH']. exists (S N). intros [|fuel] Hf h r Hr Hc; [lia|]. cbn [Layers_Model.exec]. rewrite Hc, Hd. apply IH'; [lia|assumption|assumption].
  Qed.
End Proofs.
