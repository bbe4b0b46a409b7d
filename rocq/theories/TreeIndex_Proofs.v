(** Lemmas about the index of a complete tree: every row has its parent folders among the rows, and every location has one row. *)
From Coq Require Import Ascii String Permutation.
From Verif Require Import PyBase PyDict PyStr Path_Model Path_Spec Path_Proofs FileInfo Index_Model Index_Spec Index_Proofs Build_Proofs.
Local Open Scope Z_scope.

Section Tree.
  Variable is : list insertion.
  Let rows := inserted_rows is.
  Variable shows : location -> row -> Prop.
  Hypothesis H_row : forall r, In r rows -> exists loc, shows loc r.
  Hypothesis H_path : forall loc r, shows loc r -> In r rows -> Forall proper_name loc /\ full_path r = written loc /\ ~ In slash (r_name r).
  Hypothesis H_last : forall r, In r rows -> last_inserted r rows.
  Hypothesis H_one : forall loc r r', shows loc r -> shows loc r' -> In r rows -> In r' rows -> r = r'.
  Hypothesis H_parent : forall pre n rest r, shows (pre ++ n :: rest) r -> In r rows -> rest <> [] ->
    exists r', In r' rows /\ shows (pre ++ [n]) r' /\ is_dir_mode (r_mode r') = true.

  Lemma tree_backend r : In r rows -> backend_row r.
  Proof.
    intros I. destruct (H_row r I) as [loc S]. destruct (H_path loc r S I) as (P & F & N). split; [exact N|].
    destruct loc as [|x l] using rev_ind.
    - left. unfold full_path in F. cbn in F. destruct (r_path r) as [|c p] eqn:E; cbn in F; [split; [exact E|unfold written in F; cbn in F; congruence]|].
      exfalso. injection F as _ F. destruct p; discriminate.
    - right. exists l, x. apply Forall_app in P as [P1 P2]. inversion P2; subst. split; [exact P1|]. split; assumption.
  Qed.

  Lemma shown_at loc r : shows loc r -> In r rows -> forall loc' r', shows loc' r' -> In r' rows -> full_path r' = full_path r -> loc' = loc.
  Proof.
    intros S I loc' r' S' I' E. destruct (H_path _ _ S I) as (P & F & _). destruct (H_path _ _ S' I') as (P' & F' & _).
    apply written_inj; congruence.
  Qed.

  Lemma tree_build r : In r (build is) <-> In r rows.
  Proof.
    pose proof (built_rows is tree_backend) as (B1 & B2 & _). split.
    - intros I. apply B2 in I as [(a & b & E & _)|(below & pre & n & Ib & (G1 & G2) & D)]; [unfold rows; rewrite E; apply in_or_app; right; now left|].
      exfalso. destruct G2 as (_ & _ & _ & _ & _ & _ & _ & _ & _ & _ & rest & name & (M1 & M2 & M3)).
      destruct (H_row below Ib) as [loc S]. destruct (H_path loc below S Ib) as (P & F & _).
      assert (loc = pre ++ n :: rest ++ [name]) as ->.
      { apply written_inj; [exact P| |rewrite <- F, M3; now rewrite <- app_assoc]. rewrite app_comm_cons, app_assoc. apply Forall_app. auto. }
      destruct (H_parent pre n (rest ++ [name]) below S Ib) as (r' & Ir & Sr & Dr); [destruct rest; discriminate|].
      destruct (H_path _ _ Sr Ir) as (_ & F' & _). specialize (D r' (H_last r' Ir)). rewrite D in Dr; [discriminate|]. now rewrite F'.
    - intros I. now apply B1, H_last.
  Qed.

  Lemma tree_lookup now uid gid sh loc r : any_order sh -> loc <> [] -> shows loc r -> In r rows ->
    lookup now uid gid sh (build is) (written loc) 0 = Some (row_to_file_info r).
  Proof.
    intros Hsh N S I. pose proof (built_rows is tree_backend) as (_ & _ & B3 & B4). destruct (H_path _ _ S I) as (P & F & Ns).
    destruct (@exists_last _ loc N) as (l & x & ->). apply Forall_app in P as [P1 P2]. inversion P2 as [|? ? Px _]; subst.
    assert (r_path r = folder_of l /\ r_name r = x) as [E1 E2] by (apply member_row_split; [exact Ns|]; split; [exact P1|split; assumption]).
    destruct (lookup_newest now uid gid sh (build is) l x r Hsh B3 B4 P1 Px (proj2 (tree_build r) I) E1 E2) as (r' & I' & F' & ->).
    apply tree_build in I'. destruct (H_row r' I') as [loc' S']. assert (loc' = l ++ [x]) as -> by (apply (shown_at _ r S I loc' r' S' I'); congruence).
    now rewrite (H_one _ _ _ S' S I' I).
  Qed.

  Lemma tree_lookup_only now uid gid sh p i v : any_order sh -> starts_with $"../" p = false -> denotes p <> [] ->
    lookup now uid gid sh (build is) p v = Some i -> exists r, In r rows /\ shows (denotes p) r /\ i = row_to_file_info r.
  Proof.
    intros Hsh Hp N. pose proof (built_rows is tree_backend) as (_ & _ & B3 & B4).
    rewrite (lookup_spec now uid gid sh Hsh (build is) p B3 Hp N _ (occurrences_exist _ _ B4)).
    set (occ := sort_by r_offsetheader (filter (at_path p) (build is))). intros E.
    assert (exists r, In r occ /\ i = row_to_file_info r) as (r & I & ->).
    { destruct (v <=? 0).
      - destruct (nth_error (rev occ) _) as [r|] eqn:En; [|discriminate]. apply nth_error_In, in_rev in En. injection E as <-. eauto.
      - destruct (nth_error occ _) as [r|] eqn:En; [|discriminate]. apply nth_error_In in En. injection E as <-. eauto. }
    apply (Permutation_in _ (sort_perm _ _)), filter_In in I as [I A]. unfold at_path in A. apply str_eqb_eq in A. apply tree_build in I.
    destruct (H_row r I) as [loc S]. destruct (H_path _ _ S I) as (P & F & _).
    assert (loc = denotes p) as <- by (apply written_inj; [exact P|apply denotes_proper|congruence]). eauto.
  Qed.

  Lemma tree_list sh loc : any_order sh -> Forall proper_name loc ->
    match index_list sh (build is) (written loc) with
    | Some d => NoDup (dkeys d) /\ forall n, In n (dkeys d) <-> exists r, In r rows /\ shows (loc ++ [n]) r
    | None => (loc = [] -> forall r, In r rows -> ~ shows [] r) /\ forall n r, In r rows -> ~ shows (loc ++ [n]) r
    end.
  Proof.
    intros Hsh Hl. change (index_list sh (build is) (written loc)) with (listing row_to_file_info sh (build is) (written loc)).
    assert (Hp : starts_with $"../" (written loc) = false) by reflexivity.
    pose proof (built_rows is tree_backend) as (_ & _ & B3 & B4).
    pose proof (listing_None row_to_file_info sh Hsh (build is) (written loc) Hp) as HN.
    assert (forall n r, In r rows -> shows (loc ++ [n]) r -> r_path r = folder_of loc /\ r_name r = n /\ proper_name n) as Split.
    { intros n r I S. destruct (H_path _ _ S I) as (P & F & Ns). apply Forall_app in P as [P1 P2]. inversion P2 as [|? ? Px _]; subst.
      destruct (member_row_split r loc n Ns ltac:(split; [exact P1|split; assumption])). auto. }
    destruct (listing row_to_file_info sh (build is) (written loc)) as [d|] eqn:E.
    - destruct (listing_keys row_to_file_info sh Hsh (build is) (written loc) Hp d E) as [K1 K2]. split; [exact K1|]. intros n. rewrite K2. split.
      + intros (Nn & r & I & Fo & <-). apply tree_build in I. exists r. split; [exact I|]. unfold in_folder in Fo. apply str_eqb_eq in Fo.
        rewrite denotes_written in Fo by exact Hl. destruct (H_row r I) as [loc' S]. destruct (H_path _ _ S I) as (P & F & Ns).
        destruct loc' as [|x l _] using rev_ind.
        { exfalso. unfold full_path in F. destruct (r_path r) as [|c q]; [|cbn in F; injection F as _ F; destruct q; discriminate]. unfold written in F. cbn in F. congruence. }
        apply Forall_app in P as [P1 P2]. inversion P2 as [|? ? Px _]; subst.
        destruct (member_row_split r l x Ns ltac:(split; [exact P1|split; assumption])) as [E1 E2].
        assert (l = loc) as -> by (apply folder_of_inj; congruence). now rewrite E2.
      + intros (r & I & S). destruct (Split n r I S) as (E1 & E2 & Px). split; [apply Px|]. exists r. split; [now apply tree_build|].
        split; [|exact E2]. unfold in_folder. rewrite denotes_written by exact Hl. rewrite E1. apply str_eqb_refl.
    - destruct HN as [HN _]. specialize (HN eq_refl). assert (forall r, In r rows -> r_path r <> folder_of loc) as Z0.
      { intros r I E0. assert (In r (filter (in_folder (written loc)) (build is))) as C; [|rewrite HN in C; exact C].
        apply filter_In. split; [now apply tree_build|]. unfold in_folder. rewrite denotes_written by exact Hl. rewrite E0. apply str_eqb_refl. }
      split.
      + intros -> r I S. destruct (H_path _ _ S I) as (_ & F & _). apply (Z0 r I). unfold full_path in F.
        destruct (r_path r) as [|c q]; [reflexivity|]. cbn in F. injection F as _ F. destruct q; discriminate.
      + intros n r I S. apply (Z0 r I). now apply (Split n r I S).
  Qed.
End Tree.
