(** Proofs about the reuse of indexes. *)
From Coq Require Import Ascii String.
From Verif Require Import PyBase PyStr Reuse_Model Reuse_Spec.
Local Open Scope Z_scope.

Section Proofs.
  Context {A G R : Type}.
  Variable same_args : G -> G -> bool.
  Variable parse : G -> A -> res R.
  Variable first_opens : A -> R -> bool.
  Notation file := (file A).
  Notation index := (index G R).
  Notation event := (event A G).
  Notation mount := (mount A G R same_args parse first_opens).
  Notation step := (step A G R same_args parse first_opens).
  Notation run := (run A G R same_args parse first_opens).
  Notation build := (build A G R parse).
  Notation metadata := (metadata A G).
  Notation check := (check A G R same_args first_opens).

  Lemma run_app st a b : run st (a ++ b) = run (run st a) b.
  Proof. unfold Reuse_Model.run. apply fold_left_app. Qed.

  Lemma run_file h : forall st, fst (run st h) = archive_after (fst st) h.
  Proof.
    induction h as [|e h IH]; intros [f x]; [reflexivity|]. cbn [Reuse_Model.run fold_left]. change (fold_left (fun s e0 => fst (step s e0)) h ?s) with (run s h).
    rewrite IH. destruct e as [f'|o]; cbn [Reuse_Model.step archive_after]; [reflexivity|].
    cbn [fst snd]. destruct (mount f x o). reflexivity.
  Qed.

  (** The cases of a mount. *)
  Lemma mount_cases f x o r x' : mount f x o = (r, x') ->
    (r = fst (build f o) /\ x' = snd (build f o)) \/
    (exists i w, o_recreate _ o = false /\ x = Some i /\ check f o i = Ok w /\ r = Ok (mkMounted R (x_rows _ _ i) false w) /\
       x' = Some (if o_read_only _ o then i else mkIndex G R (x_rows _ _ i) (metadata f o))) \/
    (exists i e, o_recreate _ o = false /\ x = Some i /\ check f o i = Err e /\ r = Err MismatchingIndexError /\ e = MismatchingIndexError /\ x' = x) \/
    (exists i e, o_recreate _ o = false /\ x = Some i /\ check f o i = Err e /\ o_read_only _ o = true /\ r = Err RatarmountError /\ x' = x).
  Proof.
    unfold Reuse_Model.mount. destruct (o_recreate _ o) eqn:Er.
    { intros E. left. rewrite E. auto. }
    destruct x as [i|]; [|intros E; left; rewrite E; auto].
    destruct (check f o i) as [w|e] eqn:C.
    - intros [= <- <-]. right. left. exists i, w. auto.
    - assert (forall X, X = (r, x') -> X = (if o_read_only _ o then (Err RatarmountError, Some i) else build f o) ->
        (r = fst (build f o) /\ x' = snd (build f o)) \/ (o_read_only _ o = true /\ r = Err RatarmountError /\ x' = Some i)) as K.
      { intros X -> E. symmetry in E. destruct (o_read_only _ o); [right; injection E as <- <-; auto|left; rewrite E; auto]. }
      intros E. destruct e; try (destruct (K _ E eq_refl) as [D|(D1 & D2 & D3)]; [now left|right; right; right; exists i; eexists; repeat split; eassumption || reflexivity]).
      injection E as <- <-. right. right. left. exists i, MismatchingIndexError. repeat split; assumption.
  Qed.

  Lemma build_ok f o m : fst (build f o) = Ok m -> parse (o_args _ o) (f_content _ f) = Ok (r_rows _ m) /\ r_built _ m = true /\ r_warned _ m = false.
  Proof.
    unfold Reuse_Model.build. destruct (o_read_only _ o); [discriminate|]. destruct (parse _ _) as [r|]; [|discriminate]. intros [= <-]. auto.
  Qed.

  Lemma build_index f o i : snd (build f o) = Some i -> o_read_only _ o = false /\ o_write _ o = true /\
    parse (o_args _ o) (f_content _ f) = Ok (x_rows _ _ i) /\ x_meta _ _ i = metadata f o.
  Proof.
    unfold Reuse_Model.build. destruct (o_read_only _ o); [discriminate|]. destruct (parse _ _) as [r|]; [|discriminate]. cbn [snd].
    destruct (o_write _ o); [|discriminate]. intros [= <-]. auto.
  Qed.

  Lemma run_cons st e h : run st (e :: h) = run (fst (step st e)) h.
  Proof. reflexivity. Qed.

  Lemma step_mount st o : step st (Mount _ _ o) = ((fst st, snd (mount (fst st) (snd st) o)), Some (fst (mount (fst st) (snd st) o))).
  Proof. cbn [Reuse_Model.step]. now destruct (mount (fst st) (snd st) o). Qed.

  (** ** Invariants *)

  (** All indexes were made from the archive as it was at some time, with the arguments of some mount. *)
  Definition made (P : G -> A -> Prop) (x : option index) : Prop :=
    forall i, x = Some i -> exists a c, P a c /\ parse a c = Ok (x_rows _ _ i).

  Lemma mount_made (P : G -> A -> Prop) f x o r x' : mount f x o = (r, x') -> made P x -> P (o_args _ o) (f_content _ f) ->
    made P x' /\ forall m, r = Ok m -> exists a c, P a c /\ parse a c = Ok (r_rows _ m).
  Proof.
    intros H I Po. destruct (mount_cases _ _ _ _ _ H) as [[-> ->]|[(i & w & _ & -> & _ & -> & ->)|[(i & e & _ & -> & _ & -> & _ & ->)|(i & e & _ & -> & _ & _ & -> & ->)]]].
    - split; [intros i Ei; apply build_index in Ei as (_ & _ & Ep & _); eauto|]. intros m Em. apply build_ok in Em as (Em & _). eauto.
    - destruct (I i eq_refl) as (a & c & Pa & Pp). split; [|intros m [= <-]; eauto]. intros j Ej. injection Ej as <-. destruct (o_read_only _ o); eauto.
    - split; [exact I|discriminate].
    - split; [exact I|discriminate].
  Qed.

  (** An index and the time stamp stored with it: the content it was made from. *)
  Definition stamped (g : G) (times : Z -> A -> Prop) (x : option index) : Prop :=
    forall i, x = Some i -> exists s t c, m_stats _ (x_meta _ _ i) = Some (Some s, Some t) /\ times t c /\ parse g c = Ok (x_rows _ _ i).

  Lemma check_stats f o i w s t : check f o i = Ok w -> m_stats _ (x_meta _ _ i) = Some (Some s, Some t) ->
    s <= f_size _ f /\ (o_verify _ o = true -> f_mtime _ f = t).
  Proof.
    unfold Reuse_Model.check, check_archive_stats. intros H E. rewrite E in H. destruct (check_backend _ _ _); cbn [bind] in H; [|discriminate].
    destruct (f_size _ f <? s) eqn:L; [discriminate|]. split; [lia|]. intros V. rewrite V in H. cbn [andb] in H.
    destruct (f_mtime _ f =? t) eqn:T; [lia|discriminate].
  Qed.

  Lemma mount_stamped g (times : Z -> A -> Prop) f x o r x' : mount f x o = (r, x') -> stamped g times x ->
    times (f_mtime _ f) (f_content _ f) -> (forall t c c', times t c -> times t c' -> c = c') -> o_verify _ o = true -> o_args _ o = g ->
    stamped g times x' /\ forall m, r = Ok m -> parse g (f_content _ f) = Ok (r_rows _ m).
  Proof.
    intros H I Ti Fu V Ea. destruct (mount_cases _ _ _ _ _ H) as [[-> ->]|[(i & w & _ & -> & C & -> & ->)|[(i & e & _ & -> & _ & -> & _ & ->)|(i & e & _ & -> & _ & _ & -> & ->)]]].
    - split.
      + intros i Ei. apply build_index in Ei as (_ & _ & Ep & Em). exists (f_size _ f), (f_mtime _ f), (f_content _ f). rewrite Em. rewrite Ea in Ep. auto.
      + intros m Em. apply build_ok in Em as (Em & _). now rewrite Ea in Em.
    - destruct (I i eq_refl) as (s & t & c & E1 & E2 & E3). destruct (check_stats _ _ _ _ _ _ C E1) as [_ T]. specialize (T V). subst t.
      assert (c = f_content _ f) as -> by (eapply Fu; eauto). split; [|intros m [= <-]; exact E3].
      intros j Ej. injection Ej as <-. destruct (o_read_only _ o).
      + exists s, (f_mtime _ f), (f_content _ f). auto.
      + exists (f_size _ f), (f_mtime _ f), (f_content _ f). auto.
    - split; [exact I|discriminate].
    - split; [exact I|discriminate].
  Qed.

  Lemma run_invariant (I : file -> option index -> Prop) (Q : event -> Prop) h : forall st,
    (forall f x e, I f x -> Q e -> I (fst (fst (step (f, x) e))) (snd (fst (step (f, x) e)))) ->
    I (fst st) (snd st) -> (forall e, In e h -> Q e) -> I (fst (run st h)) (snd (run st h)).
  Proof.
    induction h as [|e h IH]; intros [f x] S0 Hi Hq; [exact Hi|]. rewrite run_cons. apply IH; [exact S0| |intros e' Ie; apply Hq; now right].
    apply S0; [exact Hi|apply Hq; now left].
  Qed.

  Lemma archives_first (f : file) (h : list event) : In f (archives f h).
  Proof. revert f. induction h as [|[g|o] h IH]; intros f; cbn; auto. Qed.

  Lemma archives_change (f f' : file) (h : list event) : In (Change _ _ f') h -> In f' (archives f h).
  Proof.
    revert f. induction h as [|e0 h IH]; intros f; cbn [archives]; [intros []|]. intros [->|I].
    - right. apply archives_first.
    - destruct e0; [right|]; now apply IH.
  Qed.
End Proofs.
