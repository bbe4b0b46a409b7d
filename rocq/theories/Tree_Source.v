(** Example mount sources for the non-vacuity checks: sources given by an explicit list of entries.
    This models no code of /repo; it only provides inhabitants of the hypotheses of the theorems. *)
From Coq Require Import Ascii String.
From Verif Require Import PyBase PyDict PyStr Path_Spec Path_Proofs FileInfo Union_Model Union_Spec.
Local Open Scope Z_scope.

Section Tree.
  Context {U : Type}.
  Definition tree := list (location * finfo U).

  Definition at_path (t : tree) (p : str) : list (finfo U) :=
    map snd (filter (fun e => str_eqb (written (fst e)) p) t).
  Definition children (t : tree) (p : str) : list (str * finfo U) :=
    flat_map (fun e => match rev (fst e) with
                       | n :: r => if str_eqb (written (rev r)) p then [(n, snd e)] else []
                       | [] => [] end) t.
  Definition tree_source (t : tree) (immutable : bool) : source U :=
    mkSource (fun p v => pick (at_path t p) v) (fun p => length (at_path t p))
      (fun p => match children t p with [] => LNone | c => LDict (dict_of str_eqb c) end)
      (fun p => match children t p with [] => LNone | c => LDict (dict_of str_eqb (map (fun e => (fst e, fi_mode (snd e))) c)) end)
      immutable.

  Definition well_formed (t : tree) : Prop :=
    forall loc info, In (loc, info) t -> exists d n, loc = d ++ [n] /\ Forall proper_name loc /\
      (d = [] \/ ((exists i, In (d, i) t) /\ forall i, In (d, i) t -> is_dir_mode (fi_mode i) = true)).

  Lemma at_path_In t loc i : well_formed t -> Forall proper_name loc -> (In i (at_path t (written loc)) <-> In (loc, i) t).
  Proof.
    intros Hw Hp. unfold at_path. rewrite in_map_iff. split.
    - intros ([l j] & E & H). cbn in E. subst j. apply filter_In in H as [H1 H2]. cbn in H2. apply str_eqb_eq in H2.
      destruct (Hw _ _ H1) as (d & n & -> & Hl & _). apply written_inj in H2; [now subst|assumption|assumption].
    - intros H. exists (loc, i). split; [reflexivity|]. apply filter_In. split; [assumption|]. apply str_eqb_refl.
  Qed.

  Lemma children_In t p n : In n (map fst (children t p)) <-> exists d i, In (d ++ [n], i) t /\ written d = p.
  Proof.
    unfold children. rewrite in_map_iff. split.
    - intros ([x i] & E & H). cbn in E. subst x. apply in_flat_map in H as ([l j] & H1 & H2). cbn in H2.
      destruct (rev l) as [|y r] eqn:Er; [destruct H2|]. destruct (str_eqb_spec (written (rev r)) p); [|destruct H2].
      destruct H2 as [H2|[]]. injection H2 as -> ->. exists (rev r), i. split; [|assumption].
      apply (f_equal (@rev _)) in Er. rewrite rev_involutive in Er. cbn in Er. now rewrite <- Er.
    - intros (d & i & H1 & H2). exists (n, i). split; [reflexivity|]. apply in_flat_map. exists (d ++ [n], i). split; [assumption|].
      cbn. rewrite rev_app_distr. cbn. rewrite rev_involutive, H2, str_eqb_refl. now left.
  Qed.

  Lemma tree_names t b p n : In n (names_of (s_list (tree_source t b) p)) <-> exists d i, In (d ++ [n], i) t /\ written d = p.
  Proof.
    rewrite <- children_In. unfold tree_source, s_list. destruct (children t p) as [|e c] eqn:E; [reflexivity|]. rewrite <- E. unfold names_of, dict_of.
    rewrite (In_dkeys_dupdate str_eqb str_eqb_spec). unfold dkeys. cbn. tauto.
  Qed.

  Lemma tree_folder t b loc : well_formed t -> Forall proper_name loc -> (exists i, In (loc, i) t) ->
    (forall i, In (loc, i) t -> is_dir_mode (fi_mode i) = true) -> is_folder (tree_source t b) loc.
  Proof.
    intros Hw Hp [i Hi] Hall. right. cbn. unfold pick. cbn [Z.leb Z.compare Z.opp Z.to_nat].
    apply (at_path_In t loc i Hw Hp) in Hi. destruct (rev (at_path t (written loc))) as [|x r] eqn:E.
    - apply (f_equal (@rev _)) in E. rewrite rev_involutive in E. rewrite E in Hi. destruct Hi.
    - exists x. split; [reflexivity|]. apply Hall. apply (at_path_In t loc x Hw Hp). apply in_rev. rewrite E. now left.
  Qed.

  Lemma tree_folder_inv t b loc : well_formed t -> Forall proper_name loc -> loc <> [] -> is_folder (tree_source t b) loc ->
    exists i, In (loc, i) t /\ is_dir_mode (fi_mode i) = true.
  Proof.
    intros Hw Hp Hne [H|(i & H & Hd)]; [congruence|]. exists i. split; [|assumption]. cbn in H. unfold pick in H. cbn in H.
    destruct (rev (at_path t (written loc))) as [|x r] eqn:E; [discriminate|]. injection H as ->.
    apply (at_path_In t loc i Hw Hp). apply in_rev. rewrite E. now left.
  Qed.

  Lemma tree_nothing t b loc : well_formed t -> Forall proper_name loc -> (forall i, ~ In (loc, i) t) -> nothing_at (tree_source t b) loc.
  Proof.
    intros Hw Hp Hn. assert (E : at_path t (written loc) = []).
    { destruct (at_path t (written loc)) as [|x r] eqn:E; [reflexivity|]. exfalso. apply (Hn x). apply (at_path_In t loc x Hw Hp). rewrite E. now left. }
    split; cbn; rewrite E; [reflexivity|]. intros v. unfold pick. destruct (v <=? 0); [destruct (Z.to_nat (- v))|destruct (Z.to_nat (v - 1))]; reflexivity.
  Qed.

  Lemma tree_coherent t b : well_formed t -> coherent (tree_source t b).
  Proof.
    intros Hw. split.
    - intros loc n H. apply tree_names in H as (d & i & H & _). destruct (Hw _ _ H) as (d' & n' & E & Hp & _).
      apply Forall_app in Hp as [_ Hp]. now inversion Hp.
    - intros loc n Hp. destruct (at_path t (written (loc ++ [n]))) as [|x r] eqn:E.
      + left. apply tree_nothing; auto. intros i Hi. apply (at_path_In t _ i Hw Hp) in Hi. rewrite E in Hi. destruct Hi.
      + right. assert (Hx : In (loc ++ [n], x) t) by (apply (at_path_In t _ x Hw Hp); rewrite E; now left).
        split; [|apply tree_names; eauto]. destruct (Hw _ _ Hx) as (d & n' & Ed & _ & Hd). apply app_inj_tail in Ed as [<- <-].
        destruct Hd as [->|[He Ha]]; [now left|]. apply tree_folder; auto. apply Forall_app in Hp; tauto.
  Qed.

  Lemma tree_numbered t b p : numbered p (tree_source t b) (at_path t p).
  Proof. split; [reflexivity|]. intros v. reflexivity. Qed.
End Tree.
Arguments tree : clear implicits.

(** Decide [proper_name] of literals. *)
Ltac proper_names := repeat constructor; try discriminate; cbn; intuition discriminate.
(** Decide [well_formed] of literal trees. *)
Ltac well_formed_tree :=
  let loc := fresh in let info := fresh in let H := fresh in
  intros loc info H; cbn in H;
  repeat match type of H with _ \/ _ => destruct H as [H|H] | False => destruct H end;
  injection H as <- <-; lazymatch goal with |- exists d n, ?l = _ /\ _ => exists (removelast l), (last l []) end; (split; [reflexivity|]); (split; [proper_names|]);
  first [now left | right; split; [eexists; cbn; intuition reflexivity |
    intros i Hi; cbn in Hi; repeat match type of Hi with _ \/ _ => destruct Hi as [Hi|Hi] | False => destruct Hi end;
    try discriminate Hi; injection Hi as <-; reflexivity]].

Definition afile (n : Z) : finfo unit := mkInfo n 0 33188 [] 0 0 [].
Definition adir : finfo unit := mkInfo 0 0 16877 [] 0 0 [].
