From Verif Require Import PyBase PyDict Lru_Model Lru_Spec.

Section Proofs.
  Context {K V : Type}.
  Variable eqb : K -> K -> bool.
  Hypothesis eqb_spec : forall x y, reflect (x = y) (eqb x y).
  Local Ltac de x y := destruct (eqb_spec x y) as [?E|?N].

  Notation find := (find eqb).
  Notation use := (use eqb).
  Notation without := (without eqb).

  Local Arguments Lru_Spec.without : simpl never.
  Local Arguments Lru_Spec.use : simpl never.

  Lemma without_cons k a b (r : @entries K V) :
    without k ((a, b) :: r) = if eqb k a then without k r else (a, b) :: without k r.
  Proof. unfold Lru_Spec.without. cbn. destruct (eqb k a); reflexivity. Qed.

  (** The model state represents the entries [l]. *)
  Record rep (size : nat) (l : @entries K V) (c : lru K V) : Prop := {
    rp_size : l_size c = size;
    rp_lu : l_lastUsed c = map fst l;
    rp_nd : NoDup (map fst l);
    rp_dnd : NoDup (dkeys (l_data c));
    rp_get : forall k, dget eqb (l_data c) k = find k l;
    rp_len : length (l_data c) = length l }.

  Lemma find_dget (l : @entries K V) k : find k l = dget eqb l k.
  Proof. induction l as [|[k' v'] r IH]; cbn; [reflexivity|]. now rewrite IH. Qed.

  Lemma existsb_keys (l : @entries K V) k : existsb (eqb k) (map fst l) = match find k l with Some _ => true | None => false end.
  Proof.
    induction l as [|[k' v'] r IH]; cbn; [reflexivity|]. de k k'; cbn; [reflexivity|exact IH].
  Qed.

  Lemma find_None_without (l : @entries K V) k : find k l = None -> without k l = l.
  Proof.
    induction l as [|[k' v'] r IH]; [reflexivity|]. rewrite without_cons. cbn. de k k'; [discriminate|]. intros H. f_equal; auto.
  Qed.

  Lemma remove1_without (l : @entries K V) k : NoDup (map fst l) -> remove1 eqb k (map fst l) = map fst (without k l).
  Proof.
    induction l as [|[k' v'] r IH]; intros H; [reflexivity|]. rewrite without_cons. cbn. inversion H as [|? ? Hn Hr]; subst.
    de k k'; cbn.
    - subst. rewrite find_None_without; [reflexivity|]. rewrite find_dget. now apply dget_None.
    - f_equal; auto.
  Qed.

  Lemma refresh_use (l : @entries K V) k v : NoDup (map fst l) -> refresh eqb (map fst l) k = map fst (use k v l).
  Proof.
    intros H. unfold refresh, Lru_Spec.use. rewrite existsb_keys, map_app. cbn [map fst]. f_equal.
    destruct (find k l) eqn:E; [now apply remove1_without|now rewrite find_None_without].
  Qed.

  Lemma In_without (l : @entries K V) k x : In x (map fst (without k l)) <-> In x (map fst l) /\ x <> k.
  Proof.
    unfold Lru_Spec.without. rewrite !in_map_iff. split.
    - intros ([a b] & <- & Hin). apply filter_In in Hin as [Hin Hne]. cbn in *. split; [exists (a, b); auto|].
      de k a; [discriminate|congruence].
    - intros [([a b] & <- & Hin) Hne]. exists (a, b). split; [reflexivity|]. apply filter_In. split; [exact Hin|]. cbn in *.
      now rewrite (eqb_neq' eqb eqb_spec) by congruence.
  Qed.

  Lemma NoDup_without (l : @entries K V) k : NoDup (map fst l) -> NoDup (map fst (without k l)).
  Proof.
    induction l as [|[a b] r IH]; intros H; [constructor|]. rewrite without_cons. inversion H as [|? ? Hn Hr]; subst.
    de k a; cbn; auto. constructor; auto. rewrite In_without. tauto.
  Qed.

  Lemma NoDup_use (l : @entries K V) k v : NoDup (map fst l) -> NoDup (map fst (use k v l)).
  Proof.
    intros H. unfold Lru_Spec.use. rewrite map_app. apply NoDup_snoc; [now apply NoDup_without|].
    cbn. rewrite In_without. tauto.
  Qed.

  Lemma find_without (l : @entries K V) k x : find x (without k l) = if eqb x k then None else find x l.
  Proof.
    induction l as [|[a b] r IH]; [cbn; destruct (eqb x k); reflexivity|].
    rewrite without_cons. de k a; cbn.
    - subst. rewrite IH. de x a; reflexivity.
    - rewrite IH. de x a; [subst; now rewrite (eqb_neq' eqb eqb_spec) by congruence|reflexivity].
  Qed.

  Lemma find_app (l m : @entries K V) x : find x (l ++ m) = match find x l with Some v => Some v | None => find x m end.
  Proof. induction l as [|[a b] r IH]; cbn; [reflexivity|]. de x a; auto. Qed.

  Lemma find_use (l : @entries K V) k v x : find x (use k v l) = if eqb x k then Some v else find x l.
  Proof.
    unfold Lru_Spec.use. rewrite find_app, find_without. cbn. de x k; [reflexivity|]. destruct (find x l); reflexivity.
  Qed.

  Lemma length_without (l : @entries K V) k : NoDup (map fst l) ->
    length l = length (without k l) + (match find k l with Some _ => 1 | None => 0 end).
  Proof.
    induction l as [|[a b] r IH]; intros H; [reflexivity|]. rewrite without_cons. cbn. inversion H as [|? ? Hn Hr]; subst.
    de k a; cbn.
    - subst. rewrite find_None_without; [lia|]. rewrite find_dget. now apply dget_None.
    - rewrite (IH Hr). lia.
  Qed.

  Lemma length_use (l : @entries K V) k v : NoDup (map fst l) ->
    length (use k v l) = length l + (match find k l with Some _ => 0 | None => 1 end).
  Proof.
    intros H. unfold Lru_Spec.use. rewrite app_length. cbn. pose proof (length_without l k H). destruct (find k l); lia.
  Qed.

  Lemma length_dset (d : list (K * V)) k v : length (dset eqb d k v) = length d + (if dmem eqb d k then 0 else 1).
  Proof.
    unfold dmem. induction d as [|[a b] r IH]; cbn; [reflexivity|]. de k a; cbn; [lia|]. rewrite IH.
    destruct (dget eqb r k); lia.
  Qed.

  Lemma length_ddel (d : list (K * V)) k : dmem eqb d k = true -> length d = S (length (ddel eqb d k)).
  Proof.
    unfold dmem. induction d as [|[a b] r IH]; cbn; [discriminate|]. de k a; cbn; [reflexivity|]. intros H. now rewrite IH.
  Qed.

  Lemma evict_spec size (l : @entries K V) data :
    NoDup (map fst l) -> NoDup (dkeys data) -> (forall k, dget eqb data k = find k l) -> length data = length l ->
    exists data', evict eqb size (map fst l) data = (Ok tt, map fst (newest size l), data') /\
      NoDup (dkeys data') /\ (forall k, dget eqb data' k = find k (newest size l)) /\
      length data' = length (newest size l).
  Proof.
    revert data. induction l as [|[k v] r IH]; intros data Hnd Hdn Hget Hlen.
    - cbn in Hlen. exists data. cbn. rewrite Hlen. cbn. repeat split; auto.
    - unfold newest. destruct (Nat.ltb_spec size (length data)) as [Hlt|Hge].
      + cbn [map fst evict]. destruct (Nat.ltb_spec size (length data)) as [_|]; [|lia].
        assert (Hm : dmem eqb data k = true).
        { unfold dmem. rewrite Hget. cbn. now rewrite (eqb_refl' eqb eqb_spec). }
        rewrite Hm. inversion Hnd as [|? ? Hn Hr]; subst.
        destruct (IH (ddel eqb data k)) as (d' & E & E1 & E2 & E3); auto using NoDup_ddel.
        * intros x. rewrite dget_ddel by assumption. rewrite Hget. cbn. de x k; [|reflexivity].
          subst. symmetry. rewrite find_dget. now apply dget_None.
        * pose proof (length_ddel data k Hm). cbn [length] in Hlen. lia.
        * exists d'. rewrite E. cbn [length] in *.
          replace (S (length r) - size) with (S (length r - size)) by lia. cbn [skipn]. repeat split; auto.
      + replace (length ((k, v) :: r) - size) with 0 by lia. cbn [skipn].
        exists data. destruct r; cbn [map fst evict]; destruct (Nat.ltb_spec size (length data)); try lia; repeat split; auto.
  Qed.

  Lemma NoDup_skipn {X} n (l : list X) : NoDup l -> NoDup (skipn n l).
  Proof. revert l; induction n as [|n IH]; intros l H; [exact H|]. destruct l; [exact H|]. inversion H; subst. cbn; auto. Qed.

  Lemma step_rep size l c o :
    rep size l c ->
    match o with
    | LGetItem k => find k l <> None
    | LSetDefault k _ => find k l <> None \/ length l < size
    | _ => True
    end ->
    exists c', lru_step eqb c o = (fst (ideal_step eqb size l o), c') /\ rep size (snd (ideal_step eqb size l o)) c'.
  Proof.
    intros [Hs Hlu Hnd Hdn Hget Hlen] Hc. destruct c as [sz lu data]. cbn [l_size l_lastUsed l_data] in *. subst sz lu.
    destruct o as [k|k|k v|k|k| | |k v]; cbn [lru_step ideal_step].
    - (* getitem *)
      unfold lru_getitem. cbn [l_size l_lastUsed l_data]. rewrite Hget. destruct (find k l) as [v|] eqn:Ef; [|congruence].
      cbn [fst snd]. eexists; split; [reflexivity|].
      constructor; cbn [l_size l_lastUsed l_data]; auto using NoDup_use, refresh_use.
      + intros x. rewrite Hget, find_use. de x k; [subst; exact Ef|reflexivity].
      + rewrite length_use by assumption. rewrite Ef. lia.
    - (* get *)
      unfold lru_get. cbn [l_size l_lastUsed l_data]. rewrite Hget, existsb_keys. destruct (find k l) as [v|] eqn:Ef; cbn [fst snd].
      + eexists; split; [reflexivity|].
        constructor; cbn [l_size l_lastUsed l_data]; auto using NoDup_use.
        * rewrite remove1_without by assumption. unfold Lru_Spec.use. now rewrite map_app.
        * intros x. rewrite Hget, find_use. de x k; [subst; exact Ef|reflexivity].
        * rewrite length_use by assumption. rewrite Ef. lia.
      + eexists; split; [reflexivity|]. constructor; auto.
    - (* set *)
      unfold lru_set. cbn [l_size l_lastUsed l_data]. rewrite (refresh_use l k v Hnd).
      destruct (evict_spec size (use k v l) (dset eqb data k v)) as (d' & E & E1 & E2 & E3);
        auto using NoDup_use, NoDup_dset.
      + intros x. rewrite (dget_dset eqb eqb_spec), find_use, Hget. reflexivity.
      + rewrite length_dset, length_use by assumption. unfold dmem. rewrite Hget, Hlen. destruct (find k l); lia.
      + rewrite E. cbn [fst snd]. eexists; split; [reflexivity|]. constructor; cbn [l_size l_lastUsed l_data]; auto.
        unfold newest. rewrite <- skipn_map. apply NoDup_skipn, NoDup_use, Hnd.
    - (* del *)
      unfold lru_del, dmem. cbn [l_size l_lastUsed l_data]. rewrite Hget. destruct (find k l) as [v|] eqn:Ef; cbn [fst snd].
      + eexists; split; [reflexivity|]. rewrite existsb_keys, Ef.
        constructor; cbn [l_size l_lastUsed l_data]; auto using NoDup_without, NoDup_ddel, remove1_without.
        * intros x. rewrite dget_ddel by assumption. rewrite find_without, Hget. reflexivity.
        * pose proof (length_without l k Hnd) as H1. rewrite Ef in H1.
          assert (Hm : dmem eqb data k = true) by (unfold dmem; now rewrite Hget, Ef).
          pose proof (length_ddel data k Hm). lia.
      + eexists; split; [reflexivity|]. constructor; auto.
    - (* contains *)
      unfold lru_contains, dmem. cbn [l_data]. rewrite Hget. eexists; split; [reflexivity|]. constructor; auto.
    - (* len *)
      cbn [l_data fst snd]. rewrite Hlen. eexists; split; [reflexivity|]. constructor; auto.
    - (* clear *)
      eexists; split; [reflexivity|]. cbn. constructor; cbn; auto; constructor.
    - (* setdefault *)
      unfold lru_setdefault. cbn [l_size l_lastUsed l_data]. rewrite Hget. destruct (find k l) as [v'|] eqn:Ef; cbn [fst snd].
      + eexists; split; [reflexivity|].
        constructor; cbn [l_size l_lastUsed l_data]; auto using NoDup_use, refresh_use.
        * intros x. rewrite Hget, find_use. de x k; [subst; exact Ef|reflexivity].
        * rewrite length_use by assumption. rewrite Ef. lia.
      + assert (Hl : newest size (use k v l) = use k v l).
        { unfold newest. rewrite length_use by assumption. rewrite Ef. destruct Hc as [Hc|Hc]; [congruence|].
          now replace (length l + 1 - size) with 0 by lia. }
        rewrite Hl. eexists; split; [reflexivity|].
        constructor; cbn [l_size l_lastUsed l_data]; auto using NoDup_use, refresh_use, NoDup_dset.
        * intros x. rewrite (dget_dset eqb eqb_spec), find_use, Hget. reflexivity.
        * rewrite length_dset, length_use by assumption. unfold dmem. rewrite Hget, Ef, Hlen. lia.
  Qed.

  Lemma run_rep size ops l c : rep size l c -> careful eqb size l ops ->
    fst (lru_run eqb c ops) = fst (ideal_run eqb size l ops) /\
    rep size (snd (ideal_run eqb size l ops)) (snd (lru_run eqb c ops)).
  Proof.
    revert l c. induction ops as [|o r IH]; intros l c Hr Hc; [split; [reflexivity|exact Hr]|].
    destruct Hc as [Ho Hc]. destruct (step_rep size l c o Hr Ho) as (c' & E & Hr').
    cbn [lru_run ideal_run]. rewrite E. destruct (ideal_step eqb size l o) as [x l'] eqn:Ei. cbn [fst snd] in *.
    specialize (IH l' c' Hr' Hc). destruct (lru_run eqb c' r), (ideal_run eqb size l' r). cbn [fst snd] in *.
    destruct IH as [E1 E2]. split; [now f_equal|exact E2].
  Qed.

  Lemma rep_init size : rep size [] (lru_init size).
  Proof. constructor; cbn; auto; constructor. Qed.

  Lemma ideal_bounded size (l : @entries K V) o : NoDup (map fst l) -> length l <= size -> length (snd (ideal_step eqb size l o)) <= size.
  Proof.
    intros Hnd H. destruct o as [k|k|k v|k|k| | |k v]; cbn [ideal_step]; try (destruct (find k l) as [v'|] eqn:Ef);
      cbn [snd length]; try assumption; try lia;
      try (rewrite length_use by assumption; rewrite Ef; lia);
      try (unfold newest; rewrite skipn_length; lia).
    pose proof (length_without l k Hnd). lia.
  Qed.

  Lemma run_bounded size ops l c : rep size l c -> careful eqb size l ops -> length l <= size ->
    length (snd (ideal_run eqb size l ops)) <= size.
  Proof.
    revert l c. induction ops as [|o r IH]; intros l c Hr Hc Hl; [exact Hl|].
    destruct Hc as [Ho Hc]. destruct (step_rep size l c o Hr Ho) as (c' & E & Hr').
    pose proof (ideal_bounded size l o (rp_nd _ _ _ Hr) Hl) as Hb.
    cbn [ideal_run]. destruct (ideal_step eqb size l o) as [x l'] eqn:Ei. cbn [fst snd] in *.
    specialize (IH l' c' Hr' Hc Hb). destruct (ideal_run eqb size l' r). exact IH.
  Qed.

  Lemma lru_correct size (ops : list (lop K V)) : careful eqb size [] ops ->
    fst (lru_run eqb (lru_init size) ops) = fst (ideal_run eqb size [] ops) /\
    length (l_data (snd (lru_run eqb (lru_init size) ops))) <= size.
  Proof.
    intros Hc. destruct (run_rep size ops [] (lru_init size) (rep_init size) Hc) as [E1 E2]. split; [exact E1|].
    rewrite (rp_len _ _ _ E2). apply run_bounded with (c := lru_init size); [apply rep_init|exact Hc|cbn; lia].
  Qed.
End Proofs.
