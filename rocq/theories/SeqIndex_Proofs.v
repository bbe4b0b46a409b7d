(** Lemmas about the index of an archive whose members come one after the other, possibly several at one path. *)
From Coq Require Import Ascii String Permutation Sorting.Sorted.
From Verif Require Import PyBase PyDict PyStr Path_Model Path_Spec Path_Proofs FileInfo Index_Model Index_Spec Index_Proofs Build_Proofs.
Local Open Scope Z_scope.

(** The row with the greatest header offset of a path is what the lookup finds. *)
Lemma lookup_greatest now uid gid sh files p r : any_order sh -> simple_names files -> unique_rows files ->
  starts_with $"../" p = false -> denotes p <> [] -> In r files -> full_path r = written (denotes p) ->
  (forall r', In r' files -> full_path r' = full_path r -> r_offsetheader r' <= r_offsetheader r) ->
  lookup now uid gid sh files p 0 = Some (row_to_file_info r).
Proof.
  intros Hsh Hs Hu Hp Hroot Hr F Hmax.
  set (occ := sort_by r_offsetheader (filter (at_path p) files)).
  rewrite (lookup_spec now uid gid sh Hsh files p Hs Hp Hroot occ (occurrences_exist _ _ Hu)).
  change (if 0 <=? 0 then nth_error (rev occ) (Z.to_nat (- 0)) else nth_error occ (Z.to_nat (0 - 1))) with (nth_error (rev occ) 0).
  assert (Hin : In r occ).
  { apply (Permutation_in _ (Permutation_sym (sort_perm _ _))). apply filter_In. split; [assumption|].
    unfold at_path. apply str_eqb_eq. exact F. }
  apply in_rev in Hin. pose proof (StronglySorted_rev _ _ (sort_sorted r_offsetheader (filter (at_path p) files))) as S. fold occ in S.
  destruct (rev occ) as [|x l] eqn:Er; [destruct Hin|]. cbn [nth_error option_map].
  assert (Hx : In x occ) by (apply in_rev; rewrite Er; now left).
  apply (Permutation_in _ (sort_perm _ _)) in Hx. apply filter_In in Hx as [Hx Ha].
  unfold at_path in Ha. apply str_eqb_eq in Ha. rewrite <- F in Ha.
  assert (r_offsetheader r <= r_offsetheader x).
  { destruct Hin as [->|Hin]; [lia|]. inversion S as [|? ? _ H]; subst. rewrite Forall_forall in H. now apply H. }
  specialize (Hmax x Hx Ha).
  do 2 f_equal. apply In_nth_error in Hx as [i Hi], Hr as [j Hj].
  pose proof (Hu i j x r Hi Hj Ha ltac:(lia)). subst. congruence.
Qed.

Lemma sorted_after {X} (R : X -> X -> Prop) a x b : StronglySorted R (a ++ x :: b) -> (forall y, In y b -> R x y) /\ (forall y, In y a -> R y x).
Proof.
  induction a as [|z a IH]; cbn; intros S; inversion S as [|? ? S' H]; subst; rewrite Forall_forall in H.
  - split; [exact H|intros y []].
  - destruct (IH S') as [I1 I2]. split; [exact I1|]. intros y [<-|Hy]; [apply H, in_or_app; right; now left|now apply I2].
Qed.

Section Seq.
  Variable is : list insertion.
  Let rows := inserted_rows is.
  Hypothesis H_backend : forall r, In r rows -> backend_row r.
  Hypothesis H_sorted : StronglySorted (fun a b => r_offsetheader a < r_offsetheader b) rows.

  Lemma seq_last r : In r rows -> last_inserted r rows.
  Proof.
    intros I. apply in_split in I as (a & b & E). exists a, b. split; [exact E|]. intros r' Hr' [_ E2].
    rewrite E in H_sorted. destruct (sorted_after _ _ _ _ H_sorted) as [S _]. specialize (S r' Hr'). lia.
  Qed.

  (** What is in the finished index. *)
  Lemma seq_keeps r : In r rows -> In r (build is).
  Proof. intros I. now apply (proj1 (built_rows is H_backend)), seq_last. Qed.

  (** The newest row of a path is found if no row is below that path, or if it is a folder. *)
  Lemma seq_lookup now uid gid sh p before r after : any_order sh -> starts_with $"../" p = false -> denotes p <> [] ->
    rows = before ++ r :: after -> full_path r = written (denotes p) ->
    (forall r', In r' after -> full_path r' <> full_path r) ->
    (is_dir_mode (r_mode r) = true \/ forall r', In r' rows -> forall rest, rest <> [] -> Forall proper_name rest -> full_path r' <> written (denotes p ++ rest)) ->
    lookup now uid gid sh (build is) p 0 = Some (row_to_file_info r).
  Proof.
    intros Hsh Hp Hroot E F Hafter Hbelow. pose proof (built_rows is H_backend) as (B1 & B2 & B3 & B4).
    assert (I : In r rows) by (rewrite E; apply in_or_app; right; now left).
    apply lookup_greatest; auto using seq_keeps. intros r' Hr' F'.
    destruct (B2 r' Hr') as [(a & b & E' & _)|(below & pre & n & Ib & G & D)].
    - assert (I' : In r' rows) by (unfold rows; rewrite E'; apply in_or_app; right; now left).
      rewrite E in I'. apply in_app_or in I' as [I'|[<-|I']]; [|lia|now apply Hafter in I'].
      rewrite E in H_sorted. destruct (sorted_after _ _ _ _ H_sorted) as [_ S]. specialize (S r' I'). lia.
    - exfalso. destruct Hbelow as [Hd|Hbelow].
      + now rewrite (D r (seq_last r I) (eq_sym F')) in Hd.
      + destruct G as (G1 & _ & _ & _ & _ & _ & _ & _ & _ & _ & _ & rest & name & (M1 & M2 & M3)).
        apply (Hbelow below Ib (rest ++ [name])); [destruct rest; discriminate| |].
        { apply Forall_app in M1 as [_ M1]. inversion M1; subst. apply Forall_app. auto. }
        rewrite M3. f_equal.
        assert (denotes p = pre ++ [n]) as ->.
        { apply written_inj; [apply denotes_proper| |congruence]. apply Forall_app in M1 as [M1 M1']. inversion M1'; subst. apply Forall_app. auto. }
        now rewrite <- !app_assoc.
  Qed.
End Seq.
