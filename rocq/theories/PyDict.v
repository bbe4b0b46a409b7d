(** Python dictionaries as association lists in insertion order. *)
From Verif Require Import PyBase.

Section Dict.
  Context {K V : Type}.
  Variable eqb : K -> K -> bool.
  Hypothesis eqb_spec : forall x y, reflect (x = y) (eqb x y).

  Definition dict := list (K * V).

  (** [d.get(k)] *)
  Fixpoint dget (d : dict) (k : K) : option V :=
    match d with
    | [] => None
    | (k', v) :: r => if eqb k k' then Some v else dget r k
    end.

  (** [k in d] *)
  Definition dmem (d : dict) (k : K) : bool := match dget d k with Some _ => true | None => false end.

  (** [d[k] = v]: replaces in place or appends. *)
  Fixpoint dset (d : dict) (k : K) (v : V) : dict :=
    match d with
    | [] => [(k, v)]
    | (k', v') :: r => if eqb k k' then (k', v) :: r else (k', v') :: dset r k v
    end.

  (** [del d[k]] for a present key, no change otherwise (also [d.pop(k, None)]). *)
  Fixpoint ddel (d : dict) (k : K) : dict :=
    match d with
    | [] => []
    | (k', v') :: r => if eqb k k' then r else (k', v') :: ddel r k
    end.

  (** [d.update(e)] *)
  Definition dupdate (d e : dict) : dict := fold_left (fun acc '(k, v) => dset acc k v) e d.

  (** [dict(pairs)]: later pairs win. *)
  Definition dict_of (l : list (K * V)) : dict := dupdate [] l.

  Definition dkeys (d : dict) : list K := map fst d.

  Local Ltac de x y := destruct (eqb_spec x y) as [?E|?N].

  Lemma eqb_refl' x : eqb x x = true.
  Proof. de x x; [reflexivity|congruence]. Qed.

  Lemma eqb_neq' x y : x <> y -> eqb x y = false.
  Proof. intros H. de x y; [congruence|reflexivity]. Qed.

  Lemma dget_dset_same d k v : dget (dset d k v) k = Some v.
  Proof.
    induction d as [|[k' v'] r IH]; cbn [dset dget]; [now rewrite eqb_refl'|].
    de k k'; cbn [dget]; [subst; now rewrite eqb_refl'|]. now rewrite (eqb_neq' k k') by exact N.
  Qed.

  Lemma dget_dset_other d k v k0 : k0 <> k -> dget (dset d k v) k0 = dget d k0.
  Proof.
    intros H. induction d as [|[k' v'] r IH]; cbn [dset dget]; [now rewrite eqb_neq'|].
    de k k'; cbn [dget]; [subst; now rewrite !(eqb_neq' k0 k')|]. now rewrite IH.
  Qed.

  Lemma dget_dset d k v k0 : dget (dset d k v) k0 = if eqb k0 k then Some v else dget d k0.
  Proof. de k0 k; [subst; apply dget_dset_same|now apply dget_dset_other]. Qed.

  Lemma dget_None d k : dget d k = None <-> ~ In k (dkeys d).
  Proof.
    unfold dkeys. induction d as [|[k' v'] r IH]; cbn [dget map fst In]; [tauto|].
    de k k'; [subst; split; [discriminate|tauto]|]. rewrite IH. intuition congruence.
  Qed.

  Lemma dget_Some_In d k v : dget d k = Some v -> In (k, v) d.
  Proof.
    induction d as [|[k' v'] r IH]; cbn [dget]; [discriminate|].
    de k k'; [intros H; inversion H; subst; now left|]. intros H; right; auto.
  Qed.

  Lemma dget_In_keys d k : (exists v, dget d k = Some v) <-> In k (dkeys d).
  Proof.
    destruct (dget d k) as [v|] eqn:E.
    - split; [|eauto]. intros _. apply dget_Some_In in E. apply in_map_iff. exists (k, v). auto.
    - apply dget_None in E. split; [intros [v Hv]; discriminate|tauto].
  Qed.

  Lemma dmem_In d k : dmem d k = true <-> In k (dkeys d).
  Proof.
    unfold dmem. rewrite <- dget_In_keys. destruct (dget d k); split; eauto; try discriminate. intros [v H]; discriminate.
  Qed.

  Lemma NoDup_dget d k v : NoDup (dkeys d) -> In (k, v) d -> dget d k = Some v.
  Proof.
    unfold dkeys. induction d as [|[k' v'] r IH]; cbn [map fst dget In]; [tauto|].
    intros Hnd [E|H]; inversion Hnd as [|? ? Hn Hr]; subst.
    - inversion E; subst. now rewrite eqb_refl'.
    - rewrite eqb_neq'; [auto|]. intros ->. apply Hn. apply in_map_iff. exists (k', v). auto.
  Qed.

  Lemma dkeys_dset d k v : dkeys (dset d k v) = if dmem d k then dkeys d else dkeys d ++ [k].
  Proof.
    unfold dmem, dkeys. induction d as [|[k' v'] r IH]; cbn [dset dget map fst app]; [reflexivity|].
    de k k'; [reflexivity|]. cbn [map fst]. rewrite IH. destruct (dget r k); reflexivity.
  Qed.

  Lemma In_dkeys_dset d k v x : In x (dkeys (dset d k v)) <-> x = k \/ In x (dkeys d).
  Proof.
    rewrite dkeys_dset. destruct (dmem d k) eqn:E.
    - apply dmem_In in E. split; [auto|]. intros [->|H]; auto.
    - rewrite in_app_iff. cbn. split; intuition.
  Qed.

  Lemma NoDup_snoc {X} (l : list X) x : NoDup l -> ~ In x l -> NoDup (l ++ [x]).
  Proof.
    intros Hn Hx. induction l as [|y r IH]; cbn [app]; [constructor; [auto|constructor]|].
    inversion Hn; subst. constructor; [|apply IH; auto; intros H; apply Hx; now right].
    rewrite in_app_iff. cbn. intros [H|[->|[]]]; [auto|]. apply Hx; now left.
  Qed.

  Lemma NoDup_dset d k v : NoDup (dkeys d) -> NoDup (dkeys (dset d k v)).
  Proof.
    intros H. rewrite dkeys_dset. destruct (dmem d k) eqn:E; [exact H|].
    apply NoDup_snoc; [exact H|]. intros Hin. apply dmem_In in Hin. congruence.
  Qed.

  Lemma NoDup_ddel d k : NoDup (dkeys d) -> NoDup (dkeys (ddel d k)).
  Proof.
    unfold dkeys. induction d as [|[k' v'] r IH]; cbn [ddel map fst]; [auto|].
    intros H; inversion H as [|? ? Hn Hr]; subst. de k k'; [exact Hr|]. cbn [map fst]. constructor; [|auto].
    intros Hin. apply Hn. clear - Hin eqb_spec. induction r as [|[a b] r IHr]; [exact Hin|]. cbn [ddel map fst] in *.
    de k a; cbn [map fst In] in *; [right; exact Hin|]. destruct Hin as [->|H]; auto.
  Qed.

  Lemma dget_ddel d k k0 : NoDup (dkeys d) -> dget (ddel d k) k0 = if eqb k0 k then None else dget d k0.
  Proof.
    unfold dkeys. induction d as [|[k' v'] r IH]; intros H; cbn [ddel dget map fst] in *.
    - destruct (eqb k0 k); reflexivity.
    - inversion H as [|? ? Hn Hr]; subst. de k k'.
      + subst k'. de k0 k; [|reflexivity]. subst. now apply dget_None.
      + cbn [dget]. rewrite (IH Hr). de k0 k'; [subst; rewrite eqb_neq' by congruence; reflexivity|reflexivity].
  Qed.

  Lemma dget_dict_of_snoc l k v k0 : dget (dict_of (l ++ [(k, v)])) k0 = if eqb k0 k then Some v else dget (dict_of l) k0.
  Proof. unfold dict_of, dupdate. rewrite fold_left_app. cbn [fold_left]. apply dget_dset. Qed.

  Lemma dget_dupdate d e k : NoDup (dkeys e) ->
    dget (dupdate d e) k = match dget e k with Some v => Some v | None => dget d k end.
  Proof.
    revert d. induction e as [|[k' v'] r IH]; intros d H; cbn [dupdate fold_left dget]; [reflexivity|].
    inversion H as [|? ? Hn Hr]; subst. fold (dupdate (dset d k' v') r). rewrite IH by exact Hr.
    rewrite dget_dset. de k k'; [|reflexivity]. subst.
    apply dget_None in Hn. now rewrite Hn.
  Qed.

  Lemma NoDup_dupdate d e : NoDup (dkeys d) -> NoDup (dkeys (dupdate d e)).
  Proof.
    revert d. induction e as [|[k v] r IH]; intros d H; cbn [dupdate fold_left]; [exact H|].
    apply IH, NoDup_dset, H.
  Qed.

  Lemma In_dkeys_dupdate d e x : In x (dkeys (dupdate d e)) <-> In x (dkeys d) \/ In x (dkeys e).
  Proof.
    revert d. induction e as [|[k v] r IH]; intros d; cbn [dupdate fold_left dkeys map In fst]; [tauto|].
    fold (dupdate (dset d k v) r). rewrite IH, In_dkeys_dset. unfold dkeys. intuition.
  Qed.
End Dict.

(** ** Strings as keys *)
Lemma nat_eqb_spec (x y : nat) : reflect (x = y) (Nat.eqb x y).
Proof. destruct (Nat.eqb_spec x y); constructor; assumption. Qed.
