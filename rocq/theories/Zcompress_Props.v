(** Property C124: compressing into frames keeps the order, whatever the workers do. *)
From Verif Require Import PyBase Zcompress_Model Zcompress_Spec.
Local Open Scope Z_scope.

Section C124.
  Context {A : Type}.
  Variable compress : list A -> list A.
  Variables frameSize parallelization : Z.
  Hypothesis Size : 0 < frameSize.
  Hypothesis Par : 0 < parallelization.
  Let Step := step compress frameSize parallelization.
  Let Steps := steps compress frameSize parallelization.

  (** The whole content is written, waiting or unread, and was taken in full chunks. *)
  Definition invariant (content : list A) (s : zstate) : Prop :=
    exists written, content = concat written ++ concat (map fst (z_results s)) ++ z_left s /\ z_out s = concat (map compress written) /\
      Forall (fun c => c <> []) (written ++ map fst (z_results s)) /\
      (z_left s <> [] -> Forall (fun c => len c = frameSize) (written ++ map fst (z_results s))) /\
      (exists full last, written ++ map fst (z_results s) = full ++ last /\ Forall (fun c => len c = frameSize) full /\ (last = [] \/ exists c, last = [c] /\ len c <= frameSize)) /\
      match z_at s with Reading => len (z_results s) < parallelization | Writing => len (z_results s) <= parallelization | Draining => z_left s = [] /\ len (z_results s) < parallelization | Finished => z_left s = [] /\ z_results s = [] end.

  Lemma invariant_start content : invariant content (start content).
  Proof.
    exists []. cbn. split; [reflexivity|]. split; [reflexivity|]. split; [constructor|]. split; [constructor|]. split; [exists [], []; split; [reflexivity|split; [constructor|now left]]|exact Par].
  Qed.
  Lemma len_snoc {B} (l : list B) x : len (l ++ [x]) = len l + 1.
  Proof. rewrite len_app. reflexivity. Qed.
  Lemma pop_invariant content next s t : invariant content s -> pop compress next s = Some t ->
    match next with Writing => len (z_results s) <= parallelization | Draining => z_left s = [] /\ len (z_results s) < parallelization | _ => False end -> invariant content t.
  Proof.
    intros (w & I1 & I2 & I3 & I4 & I5 & _) H N. unfold pop in H. destruct (z_results s) as [|[c [|]] r] eqn:R; try discriminate. injection H as <-.
    exists (w ++ [c]). cbn [z_results z_left z_out z_at map fst] in *. rewrite map_app, !concat_app. cbn [map concat app]. rewrite !app_nil_r. cbn [concat] in I1. rewrite <- !app_assoc in *. cbn [app] in *.
    split; [exact I1|]. split; [now rewrite I2|]. split; [exact I3|]. split; [exact I4|]. split; [exact I5|].
    destruct next; try contradiction; unfold len in *; cbn [length] in N; [lia|]. split; [apply N|lia].
  Qed.
  Lemma step_invariant content s t : invariant content s -> Step s t -> invariant content t.
  Proof.
    intros I H. destruct H as [s t H|w l o a c b].
    - unfold caller in H. pose proof I as (w & I1 & I2 & I3 & I4 & I5 & I6). destruct (z_at s) eqn:W.
      + unfold read_chunk in H. destruct (Z.ltb_spec frameSize 0); [lia|]. destruct (ztake frameSize (z_left s)) as [|x c] eqn:T.
        * injection H as <-. assert (z_left s = []) as L.
          { destruct (z_left s) as [|y l]; [reflexivity|]. exfalso. apply (f_equal len) in T. rewrite len_ztake in T by lia. unfold len in T. cbn [length] in T. lia. }
          exists w. cbn [z_results z_left z_out z_at]. repeat split; auto.
        * injection H as <-. cbn [z_results z_left z_out z_at]. exists w. cbn [z_results z_left z_out z_at]. rewrite map_app, concat_app. cbn [map fst concat]. rewrite app_nil_r.
          assert (z_left s = (x :: c) ++ zskip frameSize (z_left s)) as Split by (rewrite <- T; symmetry; apply firstn_skipn).
          assert (z_left s <> []) as Nl by (rewrite Split; discriminate). specialize (I4 Nl).
          assert (len (x :: c) = Z.min frameSize (len (z_left s))) as Lc by (rewrite <- T, len_ztake by lia; reflexivity).
          split; [rewrite I1; rewrite Split at 1; now rewrite <- !app_assoc|]. split; [exact I2|].
          split; [rewrite app_assoc; apply Forall_app; split; [exact I3|constructor; [discriminate|constructor]]|].
          split.
          { intros N. rewrite app_assoc. apply Forall_app. split; [exact I4|]. constructor; [|constructor]. rewrite Lc.
            assert (0 < len (zskip frameSize (z_left s))) as P by (destruct (zskip frameSize (z_left s)); [contradiction|unfold len; cbn [length]; lia]). rewrite len_zskip in P by lia. lia. }
          split.
          { exists (w ++ map fst (z_results s)), [x :: c]. split; [now rewrite app_assoc|]. split; [exact I4|]. right. exists (x :: c). split; [reflexivity|lia]. }
          rewrite len_snoc. lia.
      + destruct (len (z_results s) >=? parallelization) eqn:G.
        * apply (pop_invariant content Writing s t I H). exact I6.
        * injection H as <-. exists w. cbn [z_results z_left z_out z_at]. repeat split; auto. rewrite Z.geb_leb in G. apply Z.leb_gt in G. exact G.
      + destruct (z_results s) as [|r rs] eqn:R.
        * injection H as <-. exists w. cbn [z_results z_left z_out z_at]. destruct I6 as (I6 & _). repeat split; auto.
        * rewrite <- R in *. apply (pop_invariant content Draining s t I H). exact I6.
      + discriminate.
    - destruct I as (wr & I1 & I2 & I3 & I4 & I5 & I6). exists wr. cbn [z_results z_left z_out z_at] in *. rewrite !map_app in *. cbn [map fst] in *.
      repeat split; auto. assert (forall x y : bool, len (a ++ (c, x) :: b) = len (a ++ (c, y) :: b)) as L by (intros; rewrite !len_app; reflexivity).
      destruct w; rewrite ?(L true false); auto. destruct I6 as (_ & I6). destruct a; discriminate.
  Qed.
  Lemma reachable content t : Steps (start content) t -> invariant content t.
  Proof. intros H. remember (start content) as s eqn:E. induction H as [|s t u H IH S]; [subst; apply invariant_start|]. apply (step_invariant content t); auto. Qed.

  Lemma divide full last : Forall (fun c : list A => len c = frameSize) full -> Forall (fun c => c <> []) (full ++ last) -> (last = [] \/ exists c, last = [c] /\ len c <= frameSize) ->
    divided frameSize (concat (full ++ last)) (full ++ last).
  Proof.
    intros F N L. induction F as [|c full Hc F IH]; [cbn [app concat]|change ((c :: full) ++ last) with (c :: (full ++ last)) in *; cbn [concat]].
    - destruct L as [-> |(c & -> & L)]; [constructor|]. cbn [concat]. rewrite app_nil_r. constructor; [now inversion N|exact L].
    - apply Forall_cons_iff in N as [N1 N2]. specialize (IH N2). fold (full ++ last) in *. destruct (full ++ last) as [|d r] eqn:E.
      + cbn [concat]. rewrite app_nil_r. constructor; [exact N1|]. unfold len in Hc. lia.
      + constructor; [exact Hc| |exact IH]. apply Forall_cons_iff in N2 as [N3 _]. cbn [concat]. destruct d; [contradiction|discriminate].
  Qed.

  (** C124: whenever it is finished, the output consists of the compressed chunks in their order; not more than [parallelization] chunks are
      ever waiting. *)
  Theorem C124_frames :
    forall content t, Steps (start content) t ->
    (z_at t = Finished -> exists cs, concat cs = content /\ divided frameSize content cs /\ z_out t = concat (map compress cs)) /\
    Z.of_nat (length (z_results t)) <= parallelization.
  Proof.
    intros content t H. apply reachable in H as (w & I1 & I2 & I3 & I4 & (full & last & E & F & L) & I6). split.
    - intros W. rewrite W in I6. destruct I6 as (L0 & R0). rewrite L0, R0 in *. cbn [map concat] in *. rewrite !app_nil_r in *. exists w. split; [now symmetry|]. split; [|exact I2].
      rewrite I1, E. apply divide; [exact F|now rewrite <- E|exact L].
    - unfold len in I6. destruct (z_at t); try lia. destruct I6 as (_ & ->). cbn. lia.
  Qed.

  (** So the file comes back, from one decompression of all of it, and from decompressing any frame alone. *)
  Theorem C124_round_trip :
    forall (decompress : list A -> list A), (forall cs, decompress (concat (map compress cs)) = concat cs) ->
    forall content t, Steps (start content) t -> z_at t = Finished -> decompress (z_out t) = content.
  Proof. intros decompress D content t H W. destruct (C124_frames content t H) as (F & _). destruct (F W) as (cs & <- & _ & ->). apply D. Qed.

  (** It never gets stuck: before the end, something can happen, and every schedule ends. *)
  Definition weight (s : @zstate A) : nat :=
    (6 * length (z_left s) + fold_right (fun (r : list A * bool) n => (if snd r then 2 else 3) + n) 0 (z_results s) + match z_at s with Writing => 3 | Reading => 2 | Draining => 1 | Finished => 0 end)%nat.
  Lemma waiting_app (a b : list (list A * bool)) :
    fold_right (fun (r : list A * bool) n => ((if snd r then 2 else 3) + n)%nat) 0%nat (a ++ b) = (fold_right (fun (r : list A * bool) n => ((if snd r then 2 else 3) + n)%nat) 0%nat a + fold_right (fun (r : list A * bool) n => ((if snd r then 2 else 3) + n)%nat) 0%nat b)%nat.
  Proof. induction a as [|x a IH]; [reflexivity|]. cbn [app fold_right]. rewrite IH. lia. Qed.
  Lemma step_weight s t : Step s t -> (weight t < weight s)%nat.
  Proof.
    intros [s' t' H|w l o a c b].
    - unfold caller in H. unfold weight. destruct (z_at s') eqn:W.
      + unfold read_chunk in H. destruct (Z.ltb_spec frameSize 0); [lia|]. destruct (ztake frameSize (z_left s')) as [|x c] eqn:T; injection H as <-; cbn [z_left z_results z_at]; [lia|].
        rewrite waiting_app. cbn [fold_right snd]. assert (length (z_left s') = (S (length c) + length (zskip frameSize (z_left s')))%nat) as L.
        { rewrite <- (firstn_skipn (Z.to_nat frameSize) (z_left s')) at 1. rewrite app_length. unfold ztake in T. rewrite T. reflexivity. }
        lia.
      + destruct (_ >=? _); [|injection H as <-; cbn [z_left z_results z_at]; lia]. unfold pop in H. destruct (z_results s') as [|[c [|]] r]; try discriminate. injection H as <-. cbn [z_left z_results z_at fold_right snd]. lia.
      + destruct (z_results s') as [|[c [|]] r] eqn:R; [injection H as <-; cbn [z_left z_results z_at fold_right]; lia| |]; unfold pop in H; rewrite R in H; [|discriminate].
        injection H as <-. cbn [z_left z_results z_at fold_right snd]. lia.
      + discriminate.
    - unfold weight. cbn [z_left z_results z_at]. rewrite !waiting_app. cbn [fold_right snd]. lia.
  Qed.
  Theorem C124_ends :
    forall content,
    (forall t, Steps (start content) t -> z_at t <> Finished -> exists u, Step t u) /\
    ~ (exists run : nat -> @zstate A, run 0%nat = start content /\ forall n, Step (run n) (run (S n))).
  Proof.
    intros content. split.
    - intros t H N. destruct t as [w l r o]. cbn [z_at] in N.
      assert (forall next, r <> [] -> (exists u, pop compress next (mkZ w l r o) = Some u) \/ exists u, Step (mkZ w l r o) u) as P.
      { intros next Nr. destruct r as [|[c [|]] r]; [contradiction|left; eexists; reflexivity|right]. eexists. apply (by_worker _ _ _ w l o [] c r). }
      destruct w; [| | |contradiction].
      + destruct (read_chunk frameSize l) as [[|x c] rest] eqn:Q; eexists; apply by_caller; unfold caller; cbn [z_at z_left z_results z_out]; rewrite Q; reflexivity.
      + destruct (len r >=? parallelization) eqn:G.
        * destruct (P Writing) as [(u & E)|E]; [intros ->; rewrite Z.geb_leb in G; apply Z.leb_le in G; change (len (@nil (list A * bool))) with 0 in G; lia| |exact E].
          exists u. apply by_caller. unfold caller. cbn [z_at z_results]. now rewrite G.
        * eexists. apply by_caller. unfold caller. cbn [z_at z_results]. rewrite G. reflexivity.
      + destruct r as [|x r]; [eexists; apply by_caller; reflexivity|]. destruct (P Draining) as [(u & E)|E]; [discriminate| |exact E]. exists u. apply by_caller. exact E.
    - intros (run & _ & S). assert (forall n, (weight (run n) + n <= weight (run 0%nat))%nat) as B.
      { induction n as [|n IH]; [lia|]. pose proof (step_weight _ _ (S n)). lia. }
      specialize (B (Datatypes.S (weight (run 0%nat)))). lia.
  Qed.
End C124.
Print Assumptions C124_frames.
Print Assumptions C124_round_trip.
Print Assumptions C124_ends.

(** Not so for a frame size of zero: nothing is written, and no error is raised. *)
Theorem C124_zero_refuted :
  ~ (forall (compress : list Z -> list Z) frameSize content t, steps compress frameSize 2 (start content) t -> z_at t = Finished ->
       exists cs, concat cs = content /\ z_out t = concat (map compress cs)).
Proof.
  intros H. destruct (H (fun c => c ++ [0]) 0 [1] (mkZ Finished [1] [] [])) as (cs & E & O).
  - eapply more_steps; [eapply more_steps; [apply no_step|]|]; apply by_caller; reflexivity.
  - reflexivity.
  - cbn [z_out] in O. destruct cs as [|c cs]; [discriminate|]. cbn [map concat] in O. destruct c; discriminate.
Qed.
Print Assumptions C124_zero_refuted.

(** Five bytes in frames of two with two workers; the second frame is ready first. *)
Example C124_case :
  let compress := fun c : list Z => c ++ [0] in let Steps := steps compress 2 2 in
  Steps (start [1; 2; 3; 4; 5]) (mkZ Writing [5] [([1; 2], false); ([3; 4], true)] []) /\
  Steps (start [1; 2; 3; 4; 5]) (mkZ Finished [] [] [1; 2; 0; 3; 4; 0; 5; 0]) /\
  divided 2 [1; 2; 3; 4; 5] [[1; 2]; [3; 4]; [5]].
Proof.
  cbv zeta.
  assert (forall a b c : @zstate Z, step (fun c => c ++ [0]) 2 2 a b -> steps (fun c => c ++ [0]) 2 2 b c -> steps (fun c => c ++ [0]) 2 2 a c) as Front.
  { intros a b c S H. induction H as [|b c d H IH T]; [eapply more_steps; [apply no_step|exact S]|]. eapply more_steps; [apply IH; exact S|exact T]. }
  assert (steps (fun c => c ++ [0]) 2 2 (start [1; 2; 3; 4; 5]) (mkZ Writing [5] [([1; 2], false); ([3; 4], true)] [])) as H1.
  { unfold start. eapply Front; [apply by_caller; reflexivity|]. eapply Front; [apply by_caller; reflexivity|]. eapply Front; [apply by_caller; reflexivity|].
    eapply Front; [apply (by_worker _ _ _ Writing [5] [] [([1; 2], false)] [3; 4] [])|]. apply no_step. }
  split; [exact H1|]. split.
  - assert (forall a b c : @zstate Z, steps (fun c => c ++ [0]) 2 2 a b -> steps (fun c => c ++ [0]) 2 2 b c -> steps (fun c => c ++ [0]) 2 2 a c) as Trans.
    { intros a b c S H. induction H as [|b c d H IH T]; [exact S|]. eapply more_steps; [apply IH; exact S|exact T]. }
    eapply Trans; [exact H1|]. eapply Front; [apply (by_worker _ _ _ Writing [5] [] [] [1; 2] [([3; 4], true)])|]. cbn [app].
    do 3 (eapply Front; [apply by_caller; reflexivity|]). cbn [app].
    eapply Front; [apply by_caller; reflexivity|]. eapply Front; [apply by_caller; reflexivity|]. eapply Front; [apply by_caller; reflexivity|].
    eapply Front; [apply (by_worker _ _ _ Draining [] [1; 2; 0; 3; 4; 0] [] [5] [])|]. eapply Front; [apply by_caller; reflexivity|]. eapply Front; [apply by_caller; reflexivity|]. apply no_step.
  - apply (divided_more 2 [1; 2]); [reflexivity|discriminate|]. apply (divided_more 2 [3; 4]); [reflexivity|discriminate|]. apply divided_last; [discriminate|cbn; lia].
Qed.
