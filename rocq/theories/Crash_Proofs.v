From Coq Require Import Ascii String.
From Verif Require Import PyBase PyDict PyStr Path_Model FileInfo Index_Model Crash_Model.
Local Open Scope Z_scope.

(** Statements that leave the set of tables alone. *)
Definition keeps_tables (s : stmt) : bool :=
  match s with SCreate _ | SRemoveFile | SDrop _ => false | _ => true end.

Lemma exec_keeps s x : keeps_tables s = true -> exists x', exec (Some x) s = Some x' /\ d_tables x' = d_tables x.
Proof. destruct s; cbn; intros H; try discriminate; eexists; split; reflexivity. Qed.

Lemma exec_all_keeps ss : forall x, forallb keeps_tables ss = true ->
  exists x', exec_all (Some x) ss = Some x' /\ d_tables x' = d_tables x.
Proof.
  unfold exec_all. induction ss as [|s ss IH]; intros x H; cbn [fold_left]; [eauto|]. cbn in H. apply andb_true_iff in H as [H1 H2].
  destruct (exec_keeps s x H1) as (x' & -> & E). destruct (IH x' H2) as (x'' & -> & E2). exists x''. split; [reflexivity|congruence].
Qed.

Lemma forallb_firstn {X} (f : X -> bool) l n : forallb f l = true -> forallb f (firstn n l) = true.
Proof.
  revert n. induction l as [|x l IH]; intros [|n] H; cbn in *; auto. apply andb_true_iff in H as [-> H]. cbn. auto.
Qed.

(** The tables when only [ss] that keep them run. *)
Lemma tables_after ss x n : forallb keeps_tables ss = true -> exists x', exec_all (Some x) (firstn n ss) = Some x' /\ d_tables x' = d_tables x.
Proof. intros H. apply exec_all_keeps. now apply forallb_firstn. Qed.

Lemma parent_stmts_keep st p oh o : forallb keeps_tables (parent_stmts st p oh o) = true.
Proof. unfold parent_stmts. induction (filter _ _) as [|[a b] l IH]; cbn; auto. Qed.
Lemma batch_stmts_keep rs : forall st, forallb keeps_tables (batch_stmts st rs) = true.
Proof. induction rs as [|r rs IH]; intros st; cbn; [reflexivity|]. rewrite forallb_app, parent_stmts_keep, IH. reflexivity. Qed.
Lemma insert_stmts_keep st i : forallb keeps_tables (insert_stmts st i) = true.
Proof.
  destruct i as [r|rs]; cbn; [apply parent_stmts_keep|]. rewrite forallb_app, batch_stmts_keep, andb_true_r.
  induction rs; cbn; auto.
Qed.
Lemma inserts_stmts_keep is : forall st, forallb keeps_tables (inserts_stmts st is) = true.
Proof. induction is as [|i is IH]; intros st; cbn; [reflexivity|]. rewrite forallb_app, insert_stmts_keep. cbn. apply IH. Qed.

(** Executing the statements of the insertions gives the tables of the index model. *)
Definition as_index (x : db) (cache : list (str * str)) : index := mkIndex (d_files x) (d_filestmp x) (d_parents x) cache.
Definition reflects (x : db) (st : index) : Prop := d_files x = i_files st /\ d_filestmp x = i_filestmp st /\ d_parents x = i_parents st.

Lemma exec_parents ps : forall x oh o,
  exec_all (Some x) (map (fun '(a, b) => SInsertParent (a, b, oh, o)) ps)
  = Some (mkDb (d_tables x) (d_files x) (d_filestmp x)
            (fold_left insert_parent (map (fun '(a, b) => (a, b, oh, o)) ps) (d_parents x))).
Proof.
  unfold exec_all. induction ps as [|[a b] ps IH]; intros x oh o; cbn [map fold_left]; [destruct x; reflexivity|].
  cbn [exec on]. rewrite IH. reflexivity.
Qed.

Lemma exec_parent_stmts st x p oh o : reflects x st ->
  exists x', exec_all (Some x) (parent_stmts st p oh o) = Some x' /\ reflects x' (try_add_parent_folders st p oh o).
Proof.
  intros (H1 & H2 & H3). unfold parent_stmts, try_add_parent_folders. rewrite exec_parents. eexists. split; [reflexivity|].
  destruct (filter _ _) as [|p0 ps] eqn:E; unfold reflects; cbn [d_files d_filestmp d_parents map fold_left]; [auto|].
  cbn [i_files i_filestmp i_parents]. rewrite H1, H2, H3. auto.
Qed.

Lemma exec_all_app d a b : exec_all d (a ++ b) = exec_all (exec_all d a) b.
Proof. apply fold_left_app. Qed.

Lemma exec_batch rs : forall st x, reflects x st ->
  exists x', exec_all (Some x) (batch_stmts st rs) = Some x' /\
    reflects x' (fold_left (fun s r => try_add_parent_folders s (r_path r) (r_offsetheader r) (r_offset r)) rs st).
Proof.
  induction rs as [|r rs IH]; intros st x H; cbn [batch_stmts fold_left]; [exists x; split; [reflexivity|assumption]|].
  rewrite exec_all_app. destruct (exec_parent_stmts st x (r_path r) (r_offsetheader r) (r_offset r) H) as (x1 & -> & H1). now apply IH.
Qed.

Lemma exec_files rs : forall x, exec_all (Some x) (map SInsertFile rs)
  = Some (mkDb (d_tables x) (fold_left insert_or_replace rs (d_files x)) (d_filestmp x) (d_parents x)).
Proof.
  unfold exec_all. induction rs as [|r rs IH]; intros x; cbn [map fold_left]; [destruct x; reflexivity|].
  cbn [exec on]. rewrite IH. reflexivity.
Qed.

Lemma exec_insert i st x : reflects x st -> exists x', exec_all (Some x) (insert_stmts st i) = Some x' /\ reflects x' (insert st i).
Proof.
  intros H. destruct i as [r|rs]; cbn [insert insert_stmts].
  - change (SInsertFile r :: ?l) with ([SInsertFile r] ++ l). rewrite exec_all_app. cbn [exec_all fold_left exec on].
    unfold set_file_info. set (st1 := mkIndex _ _ _ _).
    set (x1 := mkDb _ _ _ _). assert (H1 : reflects x1 st1) by (destruct H as (E1 & E2 & E3); unfold reflects; cbn; rewrite E1, E2, E3; auto).
    destruct (exec_parent_stmts st1 x1 (r_path r) (r_offsetheader r) (r_offset r) H1) as (x' & E & H').
    exists x'. split; [|exact H']. exact E.
  - rewrite exec_all_app, exec_files. unfold set_file_infos. apply exec_batch.
    destruct H as (E1 & E2 & E3). unfold reflects. cbn. rewrite E1, E2, E3. auto.
Qed.

Lemma exec_inserts is : forall st x, reflects x st ->
  exists x', exec_all (Some x) (inserts_stmts st is) = Some x' /\ reflects x' (fold_left insert is st).
Proof.
  induction is as [|i is IH]; intros st x H; cbn [inserts_stmts fold_left]; [exists x; split; [reflexivity|assumption]|].
  rewrite exec_all_app. destruct (exec_insert i st x H) as (x1 & -> & H1).
  change (SOther :: ?l) with ([SOther] ++ l). rewrite exec_all_app. cbn [exec_all fold_left exec]. now apply IH.
Qed.

Lemma exec_folders rs : forall x, exec_all (Some x) (map (fun p => SInsertFolder (folder_row p)) rs)
  = Some (mkDb (d_tables x) (fold_left insert_or_ignore (map folder_row rs) (d_files x)) (d_filestmp x) (d_parents x)).
Proof.
  unfold exec_all. induction rs as [|r rs IH]; intros x; cbn [map fold_left]; [destruct x; reflexivity|].
  cbn [exec on]. rewrite IH. reflexivity.
Qed.

Lemma folders_keep rs : forallb keeps_tables (map (fun p => SInsertFolder (folder_row p)) rs) = true.
Proof. induction rs; cbn; auto. Qed.

(** ** Crash points *)
Lemma firstn_split {X} (a b : list X) k : (k <= length a)%nat /\ firstn k (a ++ b) = firstn k a \/
  exists j, (length a <= k)%nat /\ j = (k - length a)%nat /\ firstn k (a ++ b) = a ++ firstn j b.
Proof.
  destruct (Nat.le_gt_cases k (length a)) as [H|H].
  - left. split; [assumption|]. rewrite firstn_app. replace (k - length a)%nat with O by lia. now rewrite app_nil_r.
  - right. exists (k - length a)%nat. split; [lia|]. split; [reflexivity|]. rewrite firstn_app, firstn_all2 by lia. reflexivity.
Qed.

Definition all_tables := [TFiles; TXattrKeys; TXattrsData; TXattrs; TFilesTmp; TParentFolders; TMetadata; TVersions].

Lemma create_again x n : d_tables x = all_tables -> exec_all (Some x) (firstn n create_tables) = Some x.
Proof.
  intros H. do 10 (destruct n as [|n]; [destruct x; cbn in H; subst; reflexivity|]). destruct x; cbn in H; subst; reflexivity.
Qed.

(** Rejected because of a leftover table. *)
Lemma rejected check x : existsb (table_eqb TFilesTmp) (d_tables x) = true \/ existsb (table_eqb TParentFolders) (d_tables x) = true ->
  accepted check (Some x) = false.
Proof.
  intros H. cbn. destruct (existsb (table_eqb TFiles) (d_tables x)); cbn; [|reflexivity].
  destruct (existsb (table_eqb TFilesTmp) (d_tables x)); [reflexivity|]. destruct H as [H|H]; [discriminate|]. rewrite H. reflexivity.
Qed.

Lemma exec_others x k : exec_all (Some x) (firstn k [SOther; SOther; SOther; SOther; SOther; SOther]) = Some x.
Proof. do 7 (destruct k as [|k]; [reflexivity|]). reflexivity. Qed.

Section Finalize.
  Variable st : index.
  Variable x : db.
  Hypothesis Hx : reflects x st.
  Hypothesis Ht : d_tables x = all_tables.

  Lemma finalize_crash check k :
    accepted check (exec_all (Some x) (firstn k (finalize_stmts st ++ [SOther; SOther; SOther; SOther]))) = false \/
    (exists y, exec_all (Some x) (firstn k (finalize_stmts st ++ [SOther; SOther; SOther; SOther])) = Some y /\ d_files y = finalize st).
  Proof.
    destruct Hx as (E1 & E2 & E3). unfold finalize_stmts.
    set (files1 := fold_left insert_or_replace (i_filestmp st) (i_files st)).
    set (new := filter _ (i_parents st)).
    rewrite <- !app_assoc. cbn [app].
    change (SDrop TParentFolders :: SOther :: SOther :: [SOther; SOther; SOther; SOther])
      with ([SDrop TParentFolders] ++ [SOther; SOther; SOther; SOther; SOther; SOther]).
    destruct k as [|[|k]].
    - left. apply rejected. left. rewrite Ht. reflexivity.
    - left. cbn [firstn exec_all fold_left exec on]. apply rejected. left. cbn [d_tables]. rewrite Ht. reflexivity.
    - cbn [firstn]. change (SMoveTmp :: SDrop TFilesTmp :: ?l) with ([SMoveTmp; SDrop TFilesTmp] ++ l). rewrite exec_all_app.
      cbn [exec_all fold_left exec on]. fold (exec_all (Some x)). cbn [d_tables d_files d_filestmp d_parents].
      rewrite Ht, E1, E2. fold files1. set (x1 := mkDb _ _ _ _).
      destruct (firstn_split (map (fun p => SInsertFolder (folder_row p)) new)
                  ([SDrop TParentFolders] ++ [SOther; SOther; SOther; SOther; SOther; SOther]) k) as [[Hk ->]|(j & Hk & Ej & ->)].
      + left. destruct (tables_after _ x1 k (folders_keep new)) as (y & Ey & Ety). change (fold_left exec ?l (Some x1)) with (exec_all (Some x1) l).
        rewrite Ey. apply rejected. right. rewrite Ety. reflexivity.
      + change (fold_left exec ?l (Some x1)) with (exec_all (Some x1) l). rewrite exec_all_app, exec_folders. set (x2 := mkDb _ _ _ _).
        destruct j as [|j].
        * left. cbn [firstn exec_all fold_left]. apply rejected. right. reflexivity.
        * right. cbn [app firstn]. change (SDrop TParentFolders :: ?l) with ([SDrop TParentFolders] ++ l). rewrite exec_all_app.
          cbn [exec_all fold_left exec on]. set (x3 := mkDb _ _ _ _). change (fold_left exec ?l (Some x3)) with (exec_all (Some x3) l).
          exists x3. split; [apply exec_others|]. reflexivity.
  Qed.
End Finalize.

(** Positions in the creation at which a crash leaves an incomplete file that is accepted: during the probe, and between
    the creation of the tables "files" and "filestmp". *)
Definition unsafe (k : nat) : Prop := k = 1%nat \/ (3 <= k <= 7)%nat.

Lemma creation_crash history check k :
  accepted check (exec_all None (firstn k (creation history))) = false \/
  (exists x, exec_all None (firstn k (creation history)) = Some x /\ d_files x = build history) \/ unsafe k.
Proof.
  unfold creation. destruct (Nat.lt_ge_cases k 11) as [H|H].
  - assert (Hc : k = 1%nat \/ (3 <= k <= 7)%nat \/ (k = 0 \/ k = 2 \/ k = 8 \/ k = 9 \/ k = 10)%nat) by lia.
    destruct Hc as [->|[Hc|Hc]]; [right; right; now left|right; right; now right|].
    left. destruct Hc as [->|[->|[->|[->| ->]]]]; reflexivity.
  - rewrite !app_assoc. rewrite <- app_assoc with (l := probe). rewrite <- !app_assoc.
    rewrite (app_assoc probe create_tables).
    destruct (firstn_split (probe ++ create_tables) (create_tables ++ inserts_stmts empty_index history
        ++ finalize_stmts (fold_left insert history empty_index) ++ [SOther; SOther; SOther; SOther]) k) as [[Hk E]|(j & Hk & Ej & E)].
    { cbn in Hk. assert (k = 11)%nat by lia. subst k. left. rewrite E. reflexivity. }
    rewrite E, exec_all_app. set (x0 := mkDb all_tables [] [] []).
    change (exec_all None (probe ++ create_tables)) with (Some x0).
    destruct (firstn_split create_tables (inserts_stmts empty_index history
        ++ finalize_stmts (fold_left insert history empty_index) ++ [SOther; SOther; SOther; SOther]) j) as [[Hj ->]|(j2 & Hj & Ej2 & ->)].
    { left. rewrite create_again by reflexivity. reflexivity. }
    rewrite exec_all_app. assert (Ec : exec_all (Some x0) create_tables = Some x0) by reflexivity. rewrite Ec.
    destruct (firstn_split (inserts_stmts empty_index history)
        (finalize_stmts (fold_left insert history empty_index) ++ [SOther; SOther; SOther; SOther]) j2) as [[Hj2 ->]|(j3 & Hj2 & Ej3 & ->)].
    { left. destruct (tables_after _ x0 j2 (inserts_stmts_keep history empty_index)) as (y & -> & Ey). apply rejected. left. rewrite Ey. reflexivity. }
    rewrite exec_all_app. destruct (exec_inserts history empty_index x0) as (x1 & E1 & Hr); [repeat split|].
    destruct (exec_all_keeps _ x0 (inserts_stmts_keep history empty_index)) as (x1' & E1' & Et). rewrite E1 in E1'. injection E1' as <-.
    rewrite E1. destruct (finalize_crash _ x1 Hr Et check j3) as [H1|H1]; [now left|]. right; left. exact H1.
Qed.
