From Coq Require Import Ascii String Sorting.Sorted Sorting.Permutation.
From Verif Require Import PyBase PyDict PyStr Path_Model Path_Spec Path_Proofs FileInfo Strip_Model Index_Model Index_Spec Index_Proofs Build_Proofs
  Tar_Model Tar_Spec Tar_Proofs Append_Model.
Local Open Scope Z_scope.

(** ** The parent folder table, without the cache *)
Definition pairs_of (rows : list row) : list prow :=
  flat_map (fun r => map (fun '(a, b) => (a, b, r_offsetheader r, r_offset r)) (parent_pairs (r_path r))) rows.

Definition cache_ok (st : index) : Prop := forall k, In k (i_cache st) -> In k (map pkey (i_parents st)).

Lemma insert_parent_known t p : In (pkey p) (map pkey t) -> insert_parent t p = t.
Proof.
  intros H. unfold insert_parent. replace (existsb _ t) with true; [reflexivity|]. symmetry. apply existsb_exists.
  apply in_map_iff in H as (y & E & Hy). exists y. split; [assumption|]. destruct (pair_eqb_spec (pkey y) (pkey p)); congruence.
Qed.

Lemma insert_parent_keys t p k : In k (map pkey t) -> In k (map pkey (insert_parent t p)).
Proof. intros H. unfold insert_parent. destruct (existsb _ _); [assumption|]. rewrite map_app. apply in_app_iff. now left. Qed.

Lemma insert_filtered (cache : list (str * str)) oh o ps : forall t,
  (forall k, In k cache -> In k (map pkey t)) ->
  fold_left insert_parent (map (fun '(a, b) => (a, b, oh, o)) (filter (fun p => negb (existsb (pair_eqb p) cache)) ps)) t =
  fold_left insert_parent (map (fun '(a, b) => (a, b, oh, o)) ps) t.
Proof.
  induction ps as [|[a b] ps IH]; intros t H; [reflexivity|]. cbn [filter map fold_left].
  destruct (existsb (pair_eqb (a, b)) cache) eqn:E; cbn [negb].
  - rewrite (insert_parent_known t (a, b, oh, o)); [now apply IH|]. apply existsb_exists in E as (y & Hy & Ey).
    destruct (pair_eqb_spec (a, b) y); [|discriminate]. subst y. now apply H.
  - cbn [map fold_left]. apply IH. intros k Hk. apply insert_parent_keys. auto.
Qed.

Lemma add_parents_direct st p oh o : cache_ok st ->
  i_parents (try_add_parent_folders st p oh o) = fold_left insert_parent (map (fun '(a, b) => (a, b, oh, o)) (parent_pairs p)) (i_parents st) /\
  cache_ok (try_add_parent_folders st p oh o).
Proof.
  intros H. unfold try_add_parent_folders. pose proof (insert_filtered (i_cache st) oh o (parent_pairs p) (i_parents st) H) as E.
  destruct (filter _ (parent_pairs p)) as [|x xs] eqn:Ef.
  - split; [exact E|exact H].
  - rewrite <- Ef in *. cbn [i_parents]. split; [exact E|]. unfold cache_ok. cbn [i_cache i_parents]. intros k Hk.
    match goal with |- In k (map pkey (fold_left _ ?l _)) => set (new := l) end. destruct (parents_all new (i_parents st)) as (_ & P2 & _). apply P2.
    assert (Hk' : In k (i_cache st ++ filter (fun q => negb (existsb (pair_eqb q) (i_cache st))) (parent_pairs p))).
    { destruct (Nat.ltb _ _); [|assumption].
      rewrite <- (firstn_skipn (length (i_cache st ++ filter (fun q => negb (existsb (pair_eqb q) (i_cache st))) (parent_pairs p)) - 8)).
      apply in_app_iff; now right. }
    apply in_app_iff in Hk' as [Hk'|Hk']; [left; auto|right]. unfold new. rewrite map_map.
    apply in_map_iff. exists k. destruct k. split; [reflexivity|assumption].
Qed.

Lemma batch_direct rs : forall st, cache_ok st ->
  let st' := fold_left (fun s r => try_add_parent_folders s (r_path r) (r_offsetheader r) (r_offset r)) rs st in
  i_parents st' = fold_left insert_parent (pairs_of rs) (i_parents st) /\ cache_ok st' /\ i_files st' = i_files st /\ i_filestmp st' = i_filestmp st.
Proof.
  induction rs as [|r rs IH]; intros st H; cbn [fold_left]; [auto|].
  change (pairs_of (r :: rs)) with (map (fun '(a, b) => (a, b, r_offsetheader r, r_offset r)) (parent_pairs (r_path r)) ++ pairs_of rs).
  destruct (add_parents_direct st (r_path r) (r_offsetheader r) (r_offset r) H) as [E C].
  destruct (IH _ C) as (I1 & I2 & I3 & I4). destruct (add_parents_files st (r_path r) (r_offsetheader r) (r_offset r)) as [F1 F2].
  cbv zeta in *. rewrite fold_left_app, I1, I3, I4, E, F1, F2. auto.
Qed.

Lemma inserted_state is : forall st, cache_ok st ->
  let st' := fold_left insert is st in
  i_parents st' = fold_left insert_parent (pairs_of (inserted_rows is)) (i_parents st) /\
  i_files st' = fold_left insert_or_replace (inserted_rows is) (i_files st) /\ i_filestmp st' = i_filestmp st.
Proof.
  induction is as [|i is IH]; intros st H; cbn [fold_left inserted_rows flat_map]; [auto|].
  assert (D : cache_ok (insert st i) /\
    i_parents (insert st i) = fold_left insert_parent (pairs_of (match i with One r => [r] | Batch rs => rs end)) (i_parents st) /\
    i_files (insert st i) = fold_left insert_or_replace (match i with One r => [r] | Batch rs => rs end) (i_files st) /\
    i_filestmp (insert st i) = i_filestmp st).
  { destruct i as [r|rs]; cbn [insert].
    - unfold set_file_info. set (st1 := mkIndex _ _ _ _). assert (C1 : cache_ok st1) by exact H.
      destruct (add_parents_direct st1 (r_path r) (r_offsetheader r) (r_offset r) C1) as [E C].
      destruct (add_parents_files st1 (r_path r) (r_offsetheader r) (r_offset r)) as [F1 F2].
      split; [assumption|]. rewrite E, F1, F2. unfold pairs_of. cbn [flat_map]. rewrite app_nil_r. auto.
    - unfold set_file_infos. set (st1 := mkIndex _ _ _ _). assert (C1 : cache_ok st1) by exact H.
      destruct (batch_direct rs st1 C1) as (E & C & F1 & F2). cbv zeta in *. split; [assumption|]. rewrite E, F1, F2. auto. }
  destruct D as (D1 & D2 & D3 & D4). destruct (IH _ D1) as (I1 & I2 & I3). cbv zeta in *.
  rewrite I1, I2, I3, D2, D3, D4. unfold pairs_of. rewrite flat_map_app, !fold_left_app. auto.
Qed.

Lemma parents_from ps : forall t p,
  In p (fold_left insert_parent ps t) <-> In p t \/ (~ In (pkey p) (map pkey t) /\ In p (fold_left insert_parent ps [])).
Proof.
  induction ps as [|x ps IH] using rev_ind; intros t p; [cbn; tauto|].
  rewrite !fold_left_app. cbn [fold_left]. unfold insert_parent at 1 3.
  assert (Hex : forall l, existsb (fun y => pair_eqb (pkey y) (pkey x)) l = true <-> In (pkey x) (map pkey l)).
  { intros l. rewrite existsb_exists, in_map_iff. split; intros (y & H1 & H2); exists y.
    - destruct (pair_eqb_spec (pkey y) (pkey x)); [auto|discriminate].
    - split; [assumption|]. destruct (pair_eqb_spec (pkey y) (pkey x)); congruence. }
  destruct (parents_all ps t) as (_ & K1 & _). destruct (parents_all ps []) as (_ & K2 & _). cbn [map In] in K2.
  destruct (existsb _ (fold_left insert_parent ps t)) eqn:E1.
  - apply Hex in E1. rewrite IH. destruct (existsb _ (fold_left insert_parent ps [])) eqn:E2; [tauto|].
    rewrite in_app_iff. cbn [In]. split; [tauto|]. intros [H|[H [H'|[<-|[]]]]]; [now left|now right|].
    exfalso. apply K1 in E1 as [E1|E1]; [contradiction|].
    enough (T : existsb (fun y => pair_eqb (pkey y) (pkey x)) (fold_left insert_parent ps []) = true) by congruence.
    apply Hex, K2. now right.
  - assert (N1 : ~ In (pkey x) (map pkey (fold_left insert_parent ps t))) by (intros C; apply Hex in C; congruence).
    rewrite in_app_iff, IH. cbn [In]. destruct (existsb _ (fold_left insert_parent ps [])) eqn:E2.
    + exfalso. apply N1, K1. apply Hex, K2 in E2 as [[]|E2]. now right.
    + rewrite in_app_iff. cbn [In]. split; [|tauto]. intros [[H|H]|[<-|[]]]; [tauto|tauto|]. right. split; [|tauto].
      intros C. apply N1, K1. now left.
Qed.

Lemma replace_from rows : forall t r,
  In r (fold_left insert_or_replace rows t) <->
  (In r t /\ (forall r', In r' rows -> ukey r' <> ukey r)) \/ In r (fold_left insert_or_replace rows []).
Proof.
  induction rows as [|x rows IH] using rev_ind; intros t r; [cbn; split; [intros H; left; split; [assumption|intros ? []]|intros [[H _]|[]]; exact H]|].
  rewrite !fold_left_app. cbn [fold_left]. unfold insert_or_replace at 1 3. rewrite !in_app_iff, !filter_In, IH. cbn [In].
  split.
  - intros [[[[H1 H2]|H] K]|[<-|[]]]; [|tauto|tauto]. left. split; [assumption|]. intros r' Hr'. apply in_app_iff in Hr' as [Hr'|[<-|[]]]; [auto|].
    destruct (same_key_spec x r); [discriminate|assumption].
  - intros [[H1 H2]|[[H K]|[<-|[]]]]; [|tauto|tauto]. left. split.
    + left. split; [assumption|]. intros r' Hr'. apply H2, in_app_iff. now left.
    + destruct (same_key_spec x r) as [E|]; [|reflexivity]. exfalso. apply (H2 x); [apply in_app_iff; right; now left|assumption].
Qed.

(** ** Updating a table *)
Definition one_path (rows : list row) : Prop :=
  forall a b, In a rows -> In b rows -> r_offsetheader a = r_offsetheader b -> full_path a = full_path b.

Definition no_folder (files : list row) (p : prow) : bool :=
  negb (existsb (fun r => has_dir_bit r && pair_eqb (pkey p) (r_path r, r_name r)) files).

Lemma no_folder_spec files p : no_folder files p = true <->
  forall r, In r files -> (r_path r, r_name r) = pkey p -> has_dir_bit r = false.
Proof.
  unfold no_folder. rewrite negb_true_iff. split.
  - intros H r Hr E. destruct (has_dir_bit r) eqn:D; [|reflexivity]. exfalso.
    enough (T : existsb (fun r => has_dir_bit r && pair_eqb (pkey p) (r_path r, r_name r)) files = true) by congruence.
    apply existsb_exists. exists r. split; [assumption|]. rewrite D. cbn. destruct (pair_eqb_spec (pkey p) (r_path r, r_name r)); congruence.
  - intros H. destruct (existsb _ files) eqn:E; [|reflexivity]. apply existsb_exists in E as (r & Hr & E). apply andb_true_iff in E as [D E].
    destruct (pair_eqb_spec (pkey p) (r_path r, r_name r)) as [K|]; [|discriminate]. rewrite (H r Hr (eq_sym K)) in D. discriminate.
Qed.

Lemma pairs_of_In rows p : (forall r, In r rows -> backend_row r) -> In p (pairs_of rows) ->
  exists r0 pre n rest, In r0 rows /\ r_path r0 = folder_of (pre ++ n :: rest) /\ Forall proper_name (pre ++ n :: rest) /\
    p = (folder_of pre, n, r_offsetheader r0, r_offset r0).
Proof.
  intros Hb H. unfold pairs_of in H. apply in_flat_map in H as (r0 & Hr0 & H). apply in_map_iff in H as ([a b] & <- & H).
  destruct (backend_path r0 (Hb r0 Hr0)) as (loc & Hl & E). rewrite E in H. apply parent_pairs_spec in H as (pre & rest & -> & ->); [|assumption].
  exists r0, pre, b, rest. auto.
Qed.

Lemma parents_from_pairs rows p : In p (fold_left insert_parent (pairs_of rows) []) -> In p (pairs_of rows).
Proof. intros H. destruct (parents_all (pairs_of rows) []) as (P1 & _). apply P1 in H as [[]|H]; assumption. Qed.

(** A generated row never has the key of another row. *)
Lemma generated_fresh rows p x : (forall r, In r rows -> backend_row r) -> one_path rows -> In p (pairs_of rows) -> In x rows ->
  ukey x <> ukey (folder_row p).
Proof.
  intros Hb Hu Hp Hx E. apply pairs_of_In in Hp as (r0 & pre & n & rest & H0 & H1 & H2 & ->); [|assumption].
  cbn in E. injection E as Ea Eb Ec. assert (Ef : full_path x = full_path r0) by (apply Hu; assumption).
  unfold full_path in Ef at 2. rewrite H1 in Ef.
  assert (Hx2 : full_path x = written (pre ++ [n])) by (unfold full_path; rewrite Ea, Eb; now rewrite written_snoc).
  rewrite Hx2 in Ef. rewrite <- written_snoc in Ef.
  destruct (nonroot_below r0 pre n rest (Hb r0 H0) H1 H2) as (rest' & nm & Hm0).
  pose proof (member_row_split r0 _ nm (proj1 (Hb r0 H0)) Hm0) as [E3 E4]. rewrite E3 in H1.
  apply folder_of_inj in H1; [|apply Hm0|assumption]. apply app_inv_head in H1. injection H1 as ->.
  rewrite E4 in Ef. apply written_inj in Ef.
  - rewrite <- app_assoc in Ef. apply app_inv_head in Ef. cbn in Ef. injection Ef as Ef. destruct rest; discriminate.
  - apply Forall_app in H2 as [H2a H2b]. apply Forall_app. split; [assumption|]. constructor; [exact (Forall_inv H2b)|constructor].
  - apply Forall_app. split; [assumption|]. constructor; [apply Hm0|constructor].
Qed.

Lemma folder_rows_nodup ps : NoDup (map pkey ps) -> NoDup (map ukey (map folder_row ps)).
Proof.
  rewrite map_map. induction ps as [|[[[a b] oh] o] l IH]; cbn; intros H; [constructor|]. inversion H as [|? ? H1 H2]; subst.
  constructor; [|auto]. intros Hin. apply H1. apply in_map_iff in Hin as ([[[a' b'] oh'] o'] & Ex & Hx). cbn in Ex. injection Ex as -> -> _.
  apply in_map_iff. exists (a, b, oh', o'). auto.
Qed.

(** What finalize makes of a state whose generated rows have new keys. *)
Lemma finalize_In st r : i_filestmp st = [] -> NoDup (map pkey (i_parents st)) ->
  (forall p x, In p (i_parents st) -> In x (i_files st) -> no_folder (i_files st) p = true -> ukey x <> ukey (folder_row p)) ->
  (In r (finalize st) <-> In r (i_files st) \/ exists p, In p (i_parents st) /\ no_folder (i_files st) p = true /\ r = folder_row p).
Proof.
  intros Ht Hn Hf. unfold finalize. rewrite Ht. cbn [fold_left]. change (filter _ (i_parents st)) with (filter (no_folder (i_files st)) (i_parents st)).
  destruct (ignore_all (map folder_row (filter (no_folder (i_files st)) (i_parents st))) (i_files st)) as (I1 & I2 & _ & I4 & _).
  split.
  - intros H. destruct (I1 r H) as [H'|H']; [now left|right]. apply in_map_iff in H' as (p & <- & H'). apply filter_In in H' as [Ha Hb]. eauto.
  - intros [H|(p & Hp & Hq & ->)]; [auto|]. apply I4.
    + apply in_map, filter_In. auto.
    + intros x Hx. now apply Hf.
    + apply folder_rows_nodup. now apply nodup_filter_map.
Qed.

Lemma finalize_nodup st : i_filestmp st = [] -> NoDup (map ukey (i_files st)) -> NoDup (map ukey (finalize st)).
Proof. intros Ht Hn. unfold finalize. rewrite Ht. now apply ignore_all. Qed.

Lemma replace_nodup rows : forall t, NoDup (map ukey t) -> NoDup (map ukey (fold_left insert_or_replace rows t)).
Proof.
  induction rows as [|x rows IH]; intros t H; [assumption|]. cbn [fold_left]. apply IH. unfold insert_or_replace. rewrite map_app. apply nodup_snoc.
  - now apply nodup_filter_map.
  - intros C. apply in_map_iff in C as (y & E & Hy). apply filter_In in Hy as [_ Hk]. destruct (same_key_spec x y); [discriminate|congruence].
Qed.

Lemma nodup_unique files : NoDup (map ukey files) -> simple_names files -> unique_rows files.
Proof.
  intros Hnd Hs i j a b Ha Hb E1 E2.
  assert (Hk : ukey a = ukey b).
  { apply nth_error_In in Ha, Hb. unfold ukey. unfold full_path in E1 at 2. apply (full_path_split a) in E1 as [-> ->]; auto. now rewrite E2. }
  rewrite NoDup_nth_error in Hnd. apply Hnd.
  - rewrite map_length. apply nth_error_Some. congruence.
  - rewrite !nth_error_map, Ha, Hb. cbn. now rewrite Hk.
Qed.

Definition update_table (table : list row) (is : list insertion) : list row :=
  finalize (fold_left insert is (mkIndex table [] [] [])).

Lemma empty_parents_ok files : cache_ok (mkIndex files [] [] []).
Proof. intros k []. Qed.

Section Update.
  Variables is1 is2 : list insertion.
  Let rows1 := inserted_rows is1.
  Let rows2 := inserted_rows is2.
  Hypothesis Hback : forall r, In r (rows1 ++ rows2) -> backend_row r.
  Hypothesis Hone : one_path (rows1 ++ rows2).
  Hypothesis Hlater : forall a b, In a rows1 -> In b rows2 -> r_offsetheader a < r_offsetheader b.

  Let R1 := fold_left insert_or_replace rows1 [].
  Let R2 := fold_left insert_or_replace rows2 [].
  Let P1 := fold_left insert_parent (pairs_of rows1) [].
  Let P2 := fold_left insert_parent (pairs_of rows2) [].

  Lemma R1_rows r : In r R1 -> In r rows1.
  Proof. intros H. apply replace_all_In in H as (p & q & E & _). unfold rows1. fold rows1. rewrite E. apply in_app_iff; right; now left. Qed.
  Lemma R2_rows r : In r R2 -> In r rows2.
  Proof. intros H. apply replace_all_In in H as (p & q & E & _). unfold rows2. fold rows2. rewrite E. apply in_app_iff; right; now left. Qed.
  Lemma P1_pairs p : In p P1 -> In p (pairs_of (rows1 ++ rows2)).
  Proof. intros H. apply parents_from_pairs in H. unfold pairs_of in *. rewrite flat_map_app. apply in_app_iff; now left. Qed.
  Lemma P2_pairs p : In p P2 -> In p (pairs_of (rows1 ++ rows2)).
  Proof. intros H. apply parents_from_pairs in H. unfold pairs_of in *. rewrite flat_map_app. apply in_app_iff; now right. Qed.
  Lemma P1_head p : In p P1 -> exists r0, In r0 rows1 /\ r_offsetheader (folder_row p) = r_offsetheader r0.
  Proof.
    intros H. apply parents_from_pairs, pairs_of_In in H as (r0 & pre & n & rest & H0 & _ & _ & ->); [exists r0; auto|].
    intros r Hr. apply Hback, in_app_iff; now left.
  Qed.
  Lemma P1_nodup : NoDup (map pkey P1).
  Proof. apply parents_all. constructor. Qed.
  Lemma P2_nodup : NoDup (map pkey P2).
  Proof. apply parents_all. constructor. Qed.

  Let T := build is1.
  Lemma T_In r : In r T <-> In r R1 \/ exists p, In p P1 /\ no_folder R1 p = true /\ r = folder_row p.
  Proof.
    unfold T, build. destruct (inserted_state is1 empty_index (empty_parents_ok [])) as (E1 & E2 & E3). cbv zeta in *. cbn [i_parents i_files i_filestmp empty_index] in *.
    rewrite finalize_In; rewrite ?E1, ?E2; [reflexivity|assumption|exact P1_nodup|].
    intros p x Hp Hx _. apply (generated_fresh (rows1 ++ rows2)); auto; [now apply P1_pairs|]. apply in_app_iff. left. now apply R1_rows.
  Qed.

  Let S := build (is1 ++ is2).
  Let F := fold_left insert_or_replace rows2 R1.
  Let P := fold_left insert_parent (pairs_of rows2) P1.

  Lemma F_In r : In r F <-> In r R1 \/ In r R2.
  Proof.
    unfold F. rewrite replace_from. fold R2. split; [tauto|]. intros [H|H]; [left|now right]. split; [assumption|]. intros r' Hr' E.
    pose proof (Hlater r r' (R1_rows r H) Hr'). unfold ukey in E. injection E as _ _ E. lia.
  Qed.
  Lemma P_In p : In p P <-> In p P1 \/ (~ In (pkey p) (map pkey P1) /\ In p P2).
  Proof. unfold P. apply parents_from. Qed.

  Lemma S_In r : In r S <-> In r F \/ exists p, In p P /\ no_folder F p = true /\ r = folder_row p.
  Proof.
    unfold S, build. destruct (inserted_state (is1 ++ is2) empty_index (empty_parents_ok [])) as (E1 & E2 & E3). cbv zeta in *. cbn [i_parents i_files i_filestmp empty_index] in *.
    assert (Er : inserted_rows (is1 ++ is2) = rows1 ++ rows2) by apply flat_map_app. rewrite Er in *.
    generalize dependent (fold_left insert (is1 ++ is2) empty_index). intros st E1 E2 E3.
    unfold pairs_of in E1. rewrite flat_map_app, fold_left_app in E1. rewrite fold_left_app in E2.
    rewrite finalize_In; rewrite ?E1, ?E2; [reflexivity|assumption| |].
    - apply parents_all. exact P1_nodup.
    - intros p x Hp Hx _. apply (generated_fresh (rows1 ++ rows2)); auto.
      + apply P_In in Hp as [Hp|[_ Hp]]; [now apply P1_pairs|now apply P2_pairs].
      + apply in_app_iff. apply F_In in Hx as [Hx|Hx]; [left; now apply R1_rows|right; now apply R2_rows].
  Qed.

  Let U := update_table T is2.
  Let F2 := fold_left insert_or_replace rows2 T.

  Lemma T_head r : In r T -> exists r0, In r0 rows1 /\ r_offsetheader r = r_offsetheader r0.
  Proof. intros H. apply T_In in H as [H|(p & Hp & _ & ->)]; [exists r; split; [now apply R1_rows|reflexivity]|now apply P1_head]. Qed.

  Lemma F2_In r : In r F2 <-> In r T \/ In r R2.
  Proof.
    unfold F2. rewrite replace_from. fold R2. split; [tauto|]. intros [H|H]; [left|now right]. split; [assumption|]. intros r' Hr' E.
    destruct (T_head r H) as (r0 & H0 & E0). pose proof (Hlater r0 r' H0 Hr'). unfold ukey in E. injection E as _ _ E. lia.
  Qed.

  Lemma U_In r : In r U <-> In r F2 \/ exists p, In p P2 /\ no_folder F2 p = true /\ r = folder_row p.
  Proof.
    unfold U, update_table. destruct (inserted_state is2 (mkIndex T [] [] []) (empty_parents_ok T)) as (E1 & E2 & E3). cbv zeta in *. cbn [i_parents i_files i_filestmp] in *.
    rewrite finalize_In; rewrite ?E1, ?E2; [reflexivity|assumption|exact P2_nodup|].
    intros p x Hp Hx _. fold rows2 F2 in Hx. apply F2_In in Hx as [Hx|Hx].
    - intros E. destruct (T_head x Hx) as (r0 & H0 & E0).
      apply parents_from_pairs, pairs_of_In in Hp as (r2 & pre & n & rest & H2 & _ & _ & ->); [|intros r' Hr'; apply Hback, in_app_iff; now right].
      pose proof (Hlater r0 r2 H0 H2). unfold ukey in E. injection E as _ _ E. cbn in E. lia.
    - apply (generated_fresh (rows1 ++ rows2)); auto; [now apply P2_pairs|]. apply in_app_iff. right. now apply R2_rows.
  Qed.

  (** The updated table has all rows of the one that is built from the start. *)
  Lemma update_complete r : In r S -> In r U.
  Proof.
    rewrite S_In, U_In. intros [H|(p & Hp & Hn & ->)].
    - left. apply F2_In. apply F_In in H as [H|H]; [left; apply T_In; now left|now right].
    - rewrite no_folder_spec in Hn. apply P_In in Hp as [Hp|[Hk Hp]].
      + left. apply F2_In. left. apply T_In. right. exists p. split; [assumption|]. split; [|reflexivity]. apply no_folder_spec. intros r Hr. apply Hn, F_In. now left.
      + right. exists p. split; [assumption|]. split; [|reflexivity]. apply no_folder_spec. intros r Hr E. apply F2_In in Hr as [Hr|Hr]; [|apply Hn; [apply F_In; now right|assumption]].
        apply T_In in Hr as [Hr|(q & Hq & _ & ->)]; [apply Hn; [apply F_In; now left|assumption]|].
        exfalso. apply Hk. destruct q as [[[a b] oh] o]. cbn in E. rewrite <- E. apply in_map_iff. exists (a, b, oh, o). auto.
  Qed.

  (** Its only other rows are folders generated for the old part that the new part has explicitly. *)
  Lemma update_sound r : In r U -> In r S \/
    (exists below pre n, In below rows1 /\ generated_for below r pre n) /\
    exists r', In r' S /\ In r' rows2 /\ full_path r' = full_path r /\ has_dir_bit r' = true.
  Proof.
    rewrite U_In. intros [H|(p & Hp & Hn & ->)].
    - apply F2_In in H as [H|H]; [|left; apply S_In; left; apply F_In; now right]. apply T_In in H as [H|(p & Hp & Hn & ->)]; [left; apply S_In; left; apply F_In; now left|].
      destruct (existsb (fun r => has_dir_bit r && pair_eqb (pkey p) (r_path r, r_name r)) R2) eqn:E.
      + right. apply existsb_exists in E as (r' & Hr' & E). apply andb_true_iff in E as [Ed Ek]. destruct (pair_eqb_spec (pkey p) (r_path r', r_name r')) as [K|]; [|discriminate]. split.
        * apply parents_from_pairs, pairs_of_In in Hp as (r0 & pre & n & rest & H0 & H1 & H2 & ->); [|intros x Hx; apply Hback, in_app_iff; now left].
          exists r0, pre, n. split; [assumption|]. apply (folder_row_generated r0 pre n rest); auto. apply Hback, in_app_iff; now left.
        * exists r'. split; [apply S_In; left; apply F_In; now right|]. split; [now apply R2_rows|]. split; [|assumption].
          destruct p as [[[a b] oh] o]. cbn in K. injection K as -> ->. reflexivity.
      + left. apply S_In. right. exists p. split; [apply P_In; now left|]. split; [|reflexivity]. rewrite no_folder_spec in *. intros r Hr Ek.
        apply F_In in Hr as [Hr|Hr]; [now apply Hn|]. assert (N : no_folder R2 p = true) by (unfold no_folder; now rewrite E). rewrite no_folder_spec in N. now apply N.
    - left. apply S_In. right. exists p. rewrite no_folder_spec in Hn. split; [|split; [|reflexivity]].
      + apply P_In. right. split; [|assumption]. intros C. apply in_map_iff in C as (q & Eq & Hq).
        assert (N : no_folder R1 q = true).
        { apply no_folder_spec. intros r Hr Ek. apply Hn; [apply F2_In; left; apply T_In; now left|congruence]. }
        assert (D : has_dir_bit (folder_row q) = false).
        { apply Hn; [apply F2_In; left; apply T_In; right; eauto|]. rewrite <- Eq. destruct q as [[[a b] oh] o]. reflexivity. }
        destruct q as [[[a b] oh] o]. discriminate D.
      + apply no_folder_spec. intros r Hr Ek. apply Hn; [|assumption]. apply F2_In. apply F_In in Hr as [Hr|Hr]; [left; apply T_In; now left|now right].
  Qed.

  Lemma S_simple : simple_names S.
  Proof. apply build_names. intros r Hr. apply Hback. unfold inserted_rows in Hr. rewrite flat_map_app in Hr. exact Hr. Qed.
  Lemma S_unique : unique_rows S.
  Proof. apply build_unique. intros r Hr. apply Hback. unfold inserted_rows in Hr. rewrite flat_map_app in Hr. exact Hr. Qed.

  Lemma U_simple : simple_names U.
  Proof.
    assert (HT : simple_names T) by (apply build_names; intros r Hr; apply Hback, in_app_iff; now left).
    intros r Hr. apply U_In in Hr as [Hr|(p & Hp & _ & ->)].
    - apply F2_In in Hr as [Hr|Hr]; [now apply HT|]. apply (Hback r). apply in_app_iff. right. now apply R2_rows.
    - apply parents_from_pairs, pairs_of_In in Hp as (r0 & pre & n & rest & _ & _ & Hl & ->); [|intros x Hx; apply Hback, in_app_iff; now right].
      cbn. apply Forall_app in Hl as [_ Hl]. apply (Forall_inv Hl).
  Qed.
  Lemma U_unique : unique_rows U.
  Proof.
    apply nodup_unique; [|exact U_simple]. unfold U, update_table.
    destruct (inserted_state is2 (mkIndex T [] [] []) (empty_parents_ok T)) as (E1 & E2 & E3). cbv zeta in *. cbn [i_parents i_files i_filestmp] in *.
    apply finalize_nodup; [assumption|]. rewrite E2. apply replace_nodup. unfold T. apply build_nodup.
  Qed.
End Update.

(** ** Lookups in two tables that differ in shadowed rows only *)
Lemma sorted_head {X} (key : X -> Z) l x t : sort_by key l = x :: t -> In x l /\ forall y, In y l -> key x <= key y.
Proof.
  intros E. pose proof (sort_perm key l) as P. pose proof (sort_sorted key l) as S. rewrite E in *. inversion S as [|? ? _ H]; subst. rewrite Forall_forall in H.
  split; [apply (Permutation_in _ P); now left|]. intros y Hy. apply (Permutation_in _ (Permutation_sym P)) in Hy as [<-|Hy]; [lia|auto].
Qed.

Lemma unique_In files a b : unique_rows files -> In a files -> In b files -> full_path a = full_path b -> r_offsetheader a = r_offsetheader b -> a = b.
Proof. intros U Ha Hb E1 E2. apply In_nth_error in Ha as [i Hi], Hb as [j Hj]. pose proof (U i j a b Hi Hj E1 E2). subst. congruence. Qed.

Lemma lookup_same now uid gid sh1 sh2 A B path : any_order sh1 -> any_order sh2 -> simple_names A -> simple_names B -> unique_rows B ->
  (forall r, In r A -> In r B) ->
  (forall r, In r B -> In r A \/ exists r', In r' A /\ full_path r' = full_path r /\ r_offsetheader r < r_offsetheader r') ->
  lookup now uid gid sh1 A path 0 = lookup now uid gid sh2 B path 0.
Proof.
  intros H1 H2 SA SB UB Hsub Hextra. unfold lookup. destruct (str_eqb (query_normpath path) $"/"); [reflexivity|].
  destruct (rsplit1 slash (query_normpath path)) as [[p n]|]; [|reflexivity]. change (0 <=? 0) with true. change (0 <? 0) with false. cbv iota. change (zskip (- 0)) with (@zskip row 0).
  unfold zskip. change (Z.to_nat 0) with 0%nat. cbn [skipn].
  set (mA := sh1 _). set (mB := sh2 _).
  assert (IA : forall r, In r mA <-> In r A /\ r_path r = p /\ r_name r = n).
  { intros r. unfold mA. split.
    - intros H. apply (Permutation_in _ (H1 _)) in H. apply filter_In in H as [H K]. apply andb_true_iff in K as [K1 K2]. apply str_eqb_eq in K1, K2. auto.
    - intros (H & K1 & K2). apply (Permutation_in _ (Permutation_sym (H1 _))). apply filter_In. split; [assumption|]. now rewrite K1, K2, !str_eqb_refl. }
  assert (IB : forall r, In r mB <-> In r B /\ r_path r = p /\ r_name r = n).
  { intros r. unfold mB. split.
    - intros H. apply (Permutation_in _ (H2 _)) in H. apply filter_In in H as [H K]. apply andb_true_iff in K as [K1 K2]. apply str_eqb_eq in K1, K2. auto.
    - intros (H & K1 & K2). apply (Permutation_in _ (Permutation_sym (H2 _))). apply filter_In. split; [assumption|]. now rewrite K1, K2, !str_eqb_refl. }
  assert (Up : forall y, In y mB -> exists x, In x mA /\ r_offsetheader y <= r_offsetheader x /\ (r_offsetheader y = r_offsetheader x -> y = x)).
  { intros y Hy. apply IB in Hy as (Hy & Ep & En). destruct (Hextra y Hy) as [H|(r' & H & Ef & L)].
    - exists y. split; [apply IA; auto|]. split; [lia|auto].
    - exists r'. split; [|split; [lia|intros; lia]]. apply IA. split; [assumption|].
      unfold full_path in Ef at 2. apply (full_path_split r') in Ef as [E1 E2]; [|now apply SA|now apply SB]. rewrite E1, E2. auto. }
  destruct (sort_by _ mA) as [|x tx] eqn:EA, (sort_by _ mB) as [|y ty] eqn:EB; [reflexivity| | |].
  - exfalso. apply sorted_head in EB as [Hy _]. destruct (Up y Hy) as (x & Hx & _). pose proof (sort_perm (fun r => - r_offsetheader r) mA) as P. rewrite EA in P.
    apply (Permutation_in _ (Permutation_sym P)) in Hx. destruct Hx.
  - exfalso. apply sorted_head in EA as [Hx _]. pose proof (sort_perm (fun r => - r_offsetheader r) mB) as P. rewrite EB in P.
    apply IA in Hx as (Hx & E1 & E2). assert (In x mB) as Hx' by (apply IB; auto). apply (Permutation_in _ (Permutation_sym P)) in Hx'. destruct Hx'.
  - apply sorted_head in EA as [Hx Mx]. apply sorted_head in EB as [Hy My]. do 2 f_equal.
    destruct (Up y Hy) as (z & Hz & L & _). specialize (Mx z Hz). apply IA in Hx as (Hx & E1 & E2). assert (HxB : In x mB) by (apply IB; auto). specialize (My x HxB).
    apply IB in Hy as (Hy & E3 & E4). apply (unique_In B); auto; [unfold full_path; now rewrite E1, E2, E3, E4|lia].
Qed.

(** ** The first of the largest rows *)
Definition hd_key {X} (key : X -> Z) (x : X) (l : list X) : Prop := exists t, l = x :: t.

Lemma insert_head {X} (key : X -> Z) x y t : key y <= key x -> exists t', insert_sorted key x (y :: t) = y :: t'.
Proof. intros H. cbn [insert_sorted]. destruct (Z.ltb_spec (key x) (key y)); [lia|]. eauto. Qed.

Lemma sort_keeps_head {X} (key : X -> Z) x l : forall t, (forall b, In b l -> key x <= key b) ->
  exists t', fold_left (fun acc x => insert_sorted key x acc) l (x :: t) = x :: t'.
Proof.
  induction l as [|b l IH]; intros t H; cbn [fold_left]; [eauto|]. destruct (insert_head key b x t) as [t' ->]; [apply H; now left|].
  apply IH. intros y Hy. apply H. now right.
Qed.

Lemma sort_first {X} (key : X -> Z) a x b : (forall y, In y a -> key x < key y) -> (forall y, In y b -> key x <= key y) ->
  exists t, sort_by key (a ++ x :: b) = x :: t.
Proof.
  intros Ha Hb. unfold sort_by. rewrite fold_left_app. cbn [fold_left]. fold (sort_by key a).
  assert (E : insert_sorted key x (sort_by key a) = x :: sort_by key a).
  { pose proof (sort_perm key a) as P. destruct (sort_by key a) as [|y t]; [reflexivity|]. cbn [insert_sorted].
    assert (In y a) by (apply (Permutation_in _ P); now left). destruct (Z.ltb_spec (key x) (key y)); [reflexivity|]. specialize (Ha y ltac:(assumption)). lia. }
  rewrite E. now apply sort_keeps_head.
Qed.

Lemma replace_fresh rows : forall t, NoDup (map ukey (t ++ rows)) -> fold_left insert_or_replace rows t = t ++ rows.
Proof.
  induction rows as [|x rows IH]; intros t H; [symmetry; apply app_nil_r|]. cbn [fold_left]. rewrite IH.
  - unfold insert_or_replace. rewrite <- app_assoc. cbn [app]. f_equal. rewrite map_app in H. cbn [map] in H. apply NoDup_remove_2 in H.
    assert (N : forall y, In y t -> ukey x <> ukey y) by (intros y Hy E; apply H, in_app_iff; left; rewrite E; now apply in_map).
    clear - N. induction t as [|y t IH]; [reflexivity|]. cbn [filter]. destruct (same_key_spec x y) as [E|_]; [exfalso; apply (N y); [now left|assumption]|].
    cbn [negb]. f_equal. apply IH. intros z Hz. apply N. now right.
  - unfold insert_or_replace. rewrite <- app_assoc. cbn [app]. rewrite map_app in *. cbn [map] in *.
    assert (Ef : map ukey (filter (fun y => negb (same_key x y)) t) = map ukey t); [|rewrite Ef; exact H].
    apply NoDup_remove_2 in H. assert (N : forall y, In y t -> ukey x <> ukey y) by (intros y Hy E; apply H, in_app_iff; left; rewrite E; now apply in_map).
    clear - N. induction t as [|y t IH]; [reflexivity|]. cbn [filter]. destruct (same_key_spec x y) as [E|_]; [exfalso; apply (N y); [now left|assumption]|].
    cbn [negb map]. f_equal. apply IH. intros z Hz. apply N. now right.
Qed.

Lemma ignore_app l : forall t, exists extra, fold_left insert_or_ignore l t = t ++ extra /\ forall r, In r extra -> In r l.
Proof.
  induction l as [|x l IH]; intros t; [exists []; split; [symmetry; apply app_nil_r|intros ? []]|]. cbn [fold_left]. destruct (IH (insert_or_ignore t x)) as (e & -> & H).
  unfold insert_or_ignore. destruct (existsb _ _).
  - exists e. split; [reflexivity|]. intros r Hr. right. auto.
  - exists (x :: e). rewrite <- app_assoc. split; [reflexivity|]. intros r [<-|Hr]; [now left|right; auto].
Qed.
