From Coq Require Import Ascii String Sorting.Sorted Sorting.Permutation.
From Verif Require Import PyBase PyDict PyStr Path_Model Path_Spec Path_Proofs FileInfo Index_Model Index_Spec Index_Proofs.
Local Open Scope Z_scope.

Definition ukey (r : row) : str * str * Z := (r_path r, r_name r, r_offsetheader r).
Lemma same_key_spec a b : reflect (ukey a = ukey b) (same_key a b).
Proof.
  unfold same_key, ukey. destruct (str_eqb_spec (r_path a) (r_path b)); [|right; congruence].
  destruct (str_eqb_spec (r_name a) (r_name b)); [|right; congruence].
  destruct (Z.eqb_spec (r_offsetheader a) (r_offsetheader b)); [left|right]; congruence.
Qed.
Lemma pair_eqb_spec a b : reflect (a = b) (pair_eqb a b).
Proof.
  unfold pair_eqb. destruct a as [a1 a2], b as [b1 b2]; cbn.
  destruct (str_eqb_spec a1 b1); [|right; congruence]. destruct (str_eqb_spec a2 b2); [left|right]; congruence.
Qed.

(** ** INSERT OR REPLACE, INSERT OR IGNORE *)
Lemma replace_all_In rows r : In r (fold_left insert_or_replace rows []) <->
  exists pre post, rows = pre ++ r :: post /\ forall r', In r' post -> ukey r' <> ukey r.
Proof.
  induction rows as [|x rows IH] using rev_ind; cbn.
  - split; [intros []|intros (pre & post & E & _); destruct pre; discriminate].
  - rewrite fold_left_app. cbn [fold_left]. unfold insert_or_replace at 1. rewrite in_app_iff, filter_In, IH. cbn [In]. split.
    + intros [[(pre & post & E & H) Hk]|[->|[]]].
      * exists pre, (post ++ [x]). split; [rewrite E, <- app_assoc; reflexivity|].
        intros r' Hr'. apply in_app_iff in Hr' as [Hr'|[<-|[]]]; [auto|].
        destruct (same_key_spec x r); [discriminate|assumption].
      * exists rows, []. split; [reflexivity|intros r' []].
    + intros (pre & post & E & H). destruct post as [|y post] using rev_ind.
      * apply app_inj_tail in E as [-> ->]. right; left; reflexivity.
      * clear IHpost. rewrite app_comm_cons, app_assoc in E. apply app_inj_tail in E as [-> ->]. left. split.
        -- exists pre, post. split; [reflexivity|]. intros r' Hr'. apply H. apply in_app_iff; now left.
        -- destruct (same_key_spec y r) as [E|]; [|reflexivity]. exfalso. apply (H y); [apply in_app_iff; right; now left|assumption].
Qed.

Lemma replace_all_covers rows r : In r rows -> exists r', In r' (fold_left insert_or_replace rows []) /\ ukey r' = ukey r.
Proof.
  intros H. induction rows as [|x rows IH] using rev_ind; [destruct H|].
  rewrite fold_left_app. cbn [fold_left]. unfold insert_or_replace at 1. apply in_app_iff in H as [H|[->|[]]].
  - destruct (IH H) as (r' & Hr' & E). destruct (same_key_spec x r') as [E'|N].
    + exists x. split; [apply in_app_iff; right; now left|congruence].
    + exists r'. split; [|assumption]. apply in_app_iff. left. apply filter_In. split; [assumption|].
      destruct (same_key_spec x r'); [congruence|reflexivity].
  - exists r. split; [apply in_app_iff; right; now left|reflexivity].
Qed.

Lemma nodup_filter_map {X Y} (f : X -> Y) (g : X -> bool) l : NoDup (map f l) -> NoDup (map f (filter g l)).
Proof.
  induction l as [|x l IH]; cbn; intros H; [constructor|]. inversion H as [|? ? H1 H2]; subst.
  destruct (g x); [|auto]. cbn. constructor; [|auto]. intros Hin. apply H1. apply in_map_iff in Hin as (y & E & Hy).
  apply filter_In in Hy as [Hy _]. rewrite <- E. now apply in_map.
Qed.

Lemma nodup_snoc {X} (l : list X) x : NoDup l -> ~ In x l -> NoDup (l ++ [x]).
Proof.
  intros H1 H2. apply (Permutation_NoDup (Permutation_cons_append l x)). now constructor.
Qed.

Lemma replace_all_nodup rows : NoDup (map ukey (fold_left insert_or_replace rows [])).
Proof.
  induction rows as [|x rows IH] using rev_ind; [constructor|].
  rewrite fold_left_app. cbn [fold_left]. unfold insert_or_replace at 1. rewrite map_app. cbn [map]. apply nodup_snoc.
  - now apply nodup_filter_map.
  - intros H. apply in_map_iff in H as (y & E & Hy). apply filter_In in Hy as [_ Hk].
    destruct (same_key_spec x y); [discriminate|congruence].
Qed.

Lemma ignore_all l : forall t,
  (forall r, In r (fold_left insert_or_ignore l t) -> In r t \/ In r l) /\
  (forall r, In r t -> In r (fold_left insert_or_ignore l t)) /\
  (forall r, In r l -> exists r', In r' (fold_left insert_or_ignore l t) /\ ukey r' = ukey r) /\
  (forall r, In r l -> (forall r', In r' t -> ukey r' <> ukey r) -> NoDup (map ukey l) -> In r (fold_left insert_or_ignore l t)) /\
  (NoDup (map ukey t) -> NoDup (map ukey (fold_left insert_or_ignore l t))).
Proof.
  induction l as [|x l IH]; intros t; cbn [fold_left].
  - repeat split; auto; intros ? [].
  - destruct (IH (insert_or_ignore t x)) as (I1 & I2 & I3 & I4 & I5).
    assert (Hsub : forall r, In r t -> In r (insert_or_ignore t x)).
    { intros r Hr. unfold insert_or_ignore. destruct (existsb _ _); [assumption|]. apply in_app_iff; now left. }
    assert (Hx : exists r', In r' (insert_or_ignore t x) /\ ukey r' = ukey x).
    { unfold insert_or_ignore. destruct (existsb (same_key x) t) eqn:E.
      - apply existsb_exists in E as (y & Hy & Ey). exists y. split; [assumption|]. destruct (same_key_spec x y); [congruence|discriminate].
      - exists x. split; [apply in_app_iff; right; now left|reflexivity]. }
    repeat split.
    + intros r Hr. destruct (I1 r Hr) as [H|H]; [|right; now right]. unfold insert_or_ignore in H.
      destruct (existsb _ _); [now left|]. apply in_app_iff in H as [H|[->|[]]]; [now left|right; now left].
    + auto.
    + intros r [->|Hr]; [|auto]. destruct Hx as (r' & Hr' & E). exists r'. split; [auto|assumption].
    + intros r Hr Hn Hnd. cbn [map] in Hnd. inversion Hnd as [|? ? H1 H2]; subst. destruct Hr as [->|Hr].
      * apply I2. unfold insert_or_ignore. destruct (existsb (same_key r) t) eqn:E; [|apply in_app_iff; right; now left].
        apply existsb_exists in E as (y & Hy & Ey). destruct (same_key_spec r y); [|discriminate]. exfalso. apply (Hn y); congruence.
      * apply I4; [assumption| |assumption]. intros r' Hr' E. unfold insert_or_ignore in Hr'.
        destruct (existsb _ _); [now apply (Hn r')|]. apply in_app_iff in Hr' as [Hr'|[<-|[]]]; [now apply (Hn r')|].
        apply H1. rewrite E. now apply in_map.
    + intros Hnd. apply I5. unfold insert_or_ignore. destruct (existsb (same_key x) t) eqn:E; [assumption|].
      rewrite map_app. apply nodup_snoc; [assumption|]. intros H. apply in_map_iff in H as (y & Ey & Hy).
      enough (existsb (same_key x) t = true) by congruence. apply existsb_exists. exists y. split; [assumption|].
      destruct (same_key_spec x y); congruence.
Qed.

(** ** The table of parent folders *)
Lemma parents_all ps : forall t,
  (forall p, In p (fold_left insert_parent ps t) -> In p t \/ In p ps) /\
  (forall k, In k (map pkey (fold_left insert_parent ps t)) <-> In k (map pkey t) \/ In k (map pkey ps)) /\
  (NoDup (map pkey t) -> NoDup (map pkey (fold_left insert_parent ps t))).
Proof.
  induction ps as [|x ps IH]; intros t; cbn [fold_left].
  - cbn. repeat split; auto. intros [H|[]]; exact H.
  - destruct (IH (insert_parent t x)) as (I1 & I2 & I3).
    assert (Hex : existsb (fun y => pair_eqb (pkey y) (pkey x)) t = true <-> In (pkey x) (map pkey t)).
    { rewrite existsb_exists, in_map_iff. split; intros (y & H1 & H2); exists y.
      - destruct (pair_eqb_spec (pkey y) (pkey x)); [auto|discriminate].
      - split; [assumption|]. destruct (pair_eqb_spec (pkey y) (pkey x)); congruence. }
    repeat split.
    + intros p Hp. destruct (I1 p Hp) as [H|H]; [|right; now right]. unfold insert_parent in H.
      destruct (existsb _ _); [now left|]. apply in_app_iff in H as [H|[->|[]]]; [now left|right; now left].
    + intros H. apply I2 in H as [H|H]; [|right; now right]. unfold insert_parent in H. destruct (existsb _ _); [now left|].
      rewrite map_app in H. apply in_app_iff in H as [H|[<-|[]]]; [now left|right; now left].
    + intros H. apply I2. unfold insert_parent. cbn [map In] in H. destruct (existsb _ _) eqn:E.
      * destruct H as [H|[<-|H]]; [now left| |now right]. left. now apply Hex.
      * rewrite map_app, in_app_iff. cbn. tauto.
    + intros Hnd. apply I3. unfold insert_parent. destruct (existsb _ _) eqn:E; [assumption|].
      rewrite map_app. apply nodup_snoc; [assumption|]. intros H. apply Hex in H. congruence.
Qed.

Definition parents_inv (rows : list row) (st : index) : Prop :=
  (forall k, In k (i_cache st) -> In k (map pkey (i_parents st))) /\
  (forall r k, In r rows -> In k (parent_pairs (r_path r)) -> In k (map pkey (i_parents st))) /\
  (forall a b oh o, In (a, b, oh, o) (i_parents st) ->
     exists r, In r rows /\ In (a, b) (parent_pairs (r_path r)) /\ oh = r_offsetheader r /\ o = r_offset r) /\
  NoDup (map pkey (i_parents st)).

Lemma add_parents_inv rows st r : parents_inv rows st ->
  parents_inv (rows ++ [r]) (try_add_parent_folders st (r_path r) (r_offsetheader r) (r_offset r)).
Proof.
  intros (H1 & H2 & H3 & H4). unfold try_add_parent_folders.
  set (paths := filter _ (parent_pairs (r_path r))).
  assert (Hp : forall k, In k (parent_pairs (r_path r)) -> In k (i_cache st) \/ In k paths).
  { intros k Hk. destruct (existsb (pair_eqb k) (i_cache st)) eqn:E.
    - left. apply existsb_exists in E as (y & Hy & Ey). destruct (pair_eqb_spec k y); [congruence|discriminate].
    - right. apply filter_In. rewrite E. auto. }
  assert (Hsub : forall k, In k paths -> In k (parent_pairs (r_path r))) by (intros k Hk; apply filter_In in Hk; tauto).
  destruct paths as [|p0 ps] eqn:Ep.
  - repeat split; [assumption| | |assumption].
    + intros r' k Hr' Hk. apply in_app_iff in Hr' as [Hr'|[<-|[]]]; [now apply (H2 r')|]. destruct (Hp k Hk) as [H|[]]. auto.
    + intros a b oh o Hin. destruct (H3 a b oh o Hin) as (r' & Hr' & Hr''). exists r'. split; [apply in_app_iff; now left|assumption].
  - rewrite <- Ep in *. clear Ep.
    set (new := map _ paths). destruct (parents_all new (i_parents st)) as (P1 & P2 & P3).
    assert (Hnew : map pkey new = paths).
    { unfold new. rewrite map_map. rewrite <- (map_id paths) at 2. apply map_ext. intros [a b]. reflexivity. }
    unfold parents_inv. cbn [i_parents i_cache]. repeat split.
    + intros k Hk. apply P2. rewrite Hnew.
      assert (In k (i_cache st ++ paths)) as H.
      { destruct (Nat.ltb _ _); [|assumption]. rewrite <- (firstn_skipn (length (i_cache st ++ paths) - 8)). apply in_app_iff; now right. }
      apply in_app_iff in H as [H|H]; [left; auto|now right].
    + intros r' k Hr' Hk. apply P2. rewrite Hnew. apply in_app_iff in Hr' as [Hr'|[<-|[]]]; [left; now apply (H2 r')|].
      destruct (Hp k Hk) as [H|H]; [left; auto|now right].
    + intros a b oh o Hin. destruct (P1 _ Hin) as [H|H].
      * destruct (H3 a b oh o H) as (r' & Hr' & Hr''). exists r'. split; [apply in_app_iff; now left|assumption].
      * unfold new in H. apply in_map_iff in H as ([a' b'] & E & H). injection E as <- <- <- <-.
        exists r. split; [apply in_app_iff; right; now left|]. auto.
    + auto.
Qed.

Lemma add_parents_files st p oh o :
  i_files (try_add_parent_folders st p oh o) = i_files st /\ i_filestmp (try_add_parent_folders st p oh o) = i_filestmp st.
Proof. unfold try_add_parent_folders. destruct (filter _ _); split; reflexivity. Qed.

Lemma batch_inv rs : forall rows st, parents_inv rows st ->
  parents_inv (rows ++ rs) (fold_left (fun s r => try_add_parent_folders s (r_path r) (r_offsetheader r) (r_offset r)) rs st) /\
  i_files (fold_left (fun s r => try_add_parent_folders s (r_path r) (r_offsetheader r) (r_offset r)) rs st) = i_files st /\
  i_filestmp (fold_left (fun s r => try_add_parent_folders s (r_path r) (r_offsetheader r) (r_offset r)) rs st) = i_filestmp st.
Proof.
  induction rs as [|r rs IH]; intros rows st H; cbn [fold_left]; [rewrite app_nil_r; auto|].
  destruct (IH _ _ (add_parents_inv rows st r H)) as (I1 & I2 & I3). rewrite <- app_assoc in I1.
  destruct (add_parents_files st (r_path r) (r_offsetheader r) (r_offset r)) as [E1 E2].
  rewrite I2, I3, E1, E2. auto.
Qed.

Lemma parents_inv_ext rows st st' : i_parents st = i_parents st' -> i_cache st = i_cache st' -> parents_inv rows st -> parents_inv rows st'.
Proof. intros E1 E2. unfold parents_inv. now rewrite E1, E2. Qed.

Definition build_inv (rows : list row) (st : index) : Prop :=
  parents_inv rows st /\ i_files st = fold_left insert_or_replace rows [] /\ i_filestmp st = [].

Lemma insert_inv rows st i : build_inv rows st ->
  build_inv (rows ++ match i with One r => [r] | Batch rs => rs end) (insert st i).
Proof.
  intros (H1 & H2 & H3). destruct i as [r|rs]; cbn [insert].
  - unfold set_file_info. set (st1 := mkIndex _ _ _ _). unfold build_inv.
    destruct (add_parents_files st1 (r_path r) (r_offsetheader r) (r_offset r)) as [-> ->]. repeat split.
    all: try (apply (add_parents_inv rows st1 r); eapply parents_inv_ext; [| |exact H1]; reflexivity).
    + cbn [st1 i_files]. rewrite fold_left_app, H2. reflexivity.
    + exact H3.
  - unfold set_file_infos. set (st1 := mkIndex _ _ _ _).
    assert (Hi : parents_inv rows st1) by (eapply parents_inv_ext; [| |exact H1]; reflexivity).
    destruct (batch_inv rs rows st1 Hi) as (I1 & I2 & I3). split; [assumption|].
    rewrite I2, I3. cbn [st1 i_files i_filestmp]. rewrite fold_left_app, H2. auto.
Qed.

Lemma empty_inv : build_inv [] empty_index.
Proof. repeat split; cbn; try tauto; try constructor. Qed.

Lemma inserts_inv is : build_inv (inserted_rows is) (fold_left insert is empty_index).
Proof.
  induction is as [|i is IH] using rev_ind; [exact empty_inv|].
  rewrite fold_left_app. cbn [fold_left]. unfold inserted_rows. rewrite flat_map_app. cbn [flat_map]. rewrite app_nil_r.
  now apply insert_inv.
Qed.

(** ** Parent pairs *)
Lemma nth_split_ex {X} (l : list X) i d : (i < length l)%nat -> l = firstn i l ++ nth i l d :: skipn (S i) l.
Proof.
  revert i. induction l as [|x l IH]; intros [|i] H; cbn in *; try lia; [reflexivity|]. f_equal. apply IH. lia.
Qed.

Lemma join_folder pre : join $"/" ([] :: pre) = folder_of pre.
Proof. destruct pre; reflexivity. Qed.

Lemma parent_pairs_spec loc a b : Forall proper_name loc ->
  (In (a, b) (parent_pairs (folder_of loc)) <-> exists pre rest, loc = pre ++ b :: rest /\ a = folder_of pre).
Proof.
  intros Hl. unfold parent_pairs. destruct loc as [|x r].
  - cbn. split; [intros []|]. intros (pre & rest & E & _). destruct pre; discriminate.
  - assert (E : split slash (folder_of (x :: r)) = [] :: x :: r) by (apply split_written; [assumption|discriminate]).
    rewrite E. remember (x :: r) as loc eqn:El. clear El E x r. rewrite in_map_iff. cbn [length].
    split.
    + intros (i & Ei & Hi). apply in_seq in Hi. destruct i as [|i]; [lia|]. cbn [firstn nth] in Ei. injection Ei as <- <-.
      exists (firstn i loc), (skipn (S i) loc). split; [apply nth_split_ex; lia|]. apply join_folder.
    + intros (pre & rest & -> & ->). exists (S (length pre)). split.
      * cbn [firstn nth]. rewrite firstn_app, firstn_all, Nat.sub_diag. cbn [firstn]. rewrite app_nil_r.
        rewrite app_nth2, Nat.sub_diag by lia. cbn [nth]. now rewrite join_folder.
      * apply in_seq. rewrite app_length. cbn [length]. lia.
Qed.

(** ** Rows of backends *)
Lemma member_row_split r loc name : ~ In slash (r_name r) -> member_row r loc name -> r_path r = folder_of loc /\ r_name r = name.
Proof.
  intros Hs (Hl & Hn & E). rewrite written_snoc in E. apply full_path_split in E; [assumption|assumption|apply Hn].
Qed.

Lemma backend_path r : backend_row r -> exists loc, Forall proper_name loc /\ r_path r = folder_of loc.
Proof.
  intros [Hs [[E1 E2]|(loc & name & H)]].
  - exists []. split; [constructor|]. now rewrite E1.
  - exists loc. split; [apply H|]. now apply (member_row_split r loc name).
Qed.

(** ** The finalized table *)
Section Built.
  Variable is : list insertion.
  Let rows := inserted_rows is.
  Hypothesis Hback : forall r, In r rows -> backend_row r.

  Lemma build_eq : build is =
    fold_left insert_or_ignore
      (map folder_row (filter (fun p => negb (existsb (fun r => has_dir_bit r && pair_eqb (pkey p) (r_path r, r_name r))
                                             (fold_left insert_or_replace rows [])))
                         (i_parents (fold_left insert is empty_index))))
      (fold_left insert_or_replace rows []).
  Proof.
    unfold build, finalize. destruct (inserts_inv is) as (_ & H2 & H3). rewrite H3, H2. reflexivity.
  Qed.

  Lemma build_from r : In r (build is) ->
    In r (fold_left insert_or_replace rows []) \/
    exists r0 pre n rest, In r0 rows /\ r_path r0 = folder_of (pre ++ n :: rest) /\ Forall proper_name (pre ++ n :: rest) /\
      r = folder_row (folder_of pre, n, r_offsetheader r0, r_offset r0) /\
      (forall r', In r' (fold_left insert_or_replace rows []) -> r_path r' = folder_of pre -> r_name r' = n -> has_dir_bit r' = false).
  Proof.
    rewrite build_eq. intros H. apply ignore_all in H as [H|H]; [now left|right].
    apply in_map_iff in H as ([[[a b] oh] o] & <- & H). apply filter_In in H as [H Hn].
    destruct (inserts_inv is) as ((_ & _ & P3 & _) & _). destruct (P3 a b oh o H) as (r0 & Hr0 & Hp & -> & ->).
    destruct (backend_path r0 (Hback r0 Hr0)) as (loc & Hl & Eloc). rewrite Eloc in Hp. apply (parent_pairs_spec loc a b Hl) in Hp as (pre & rest & -> & ->).
    exists r0, pre, b, rest. repeat split; auto.
    intros r' Hr' E1 E2. apply negb_true_iff in Hn. destruct (has_dir_bit r') eqn:Eb; [|reflexivity]. exfalso.
    enough (existsb (fun r => has_dir_bit r && pair_eqb (pkey (folder_of pre, b, r_offsetheader r0, r_offset r0)) (r_path r, r_name r))
              (fold_left insert_or_replace rows []) = true) by congruence.
    apply existsb_exists. exists r'. split; [assumption|]. rewrite Eb, E1, E2. cbn. destruct (pair_eqb_spec (folder_of pre, b) (folder_of pre, b)); congruence.
  Qed.

  Lemma build_keeps r : In r (fold_left insert_or_replace rows []) -> In r (build is).
  Proof. rewrite build_eq. intros H. exact (proj1 (proj2 (ignore_all _ _)) r H). Qed.

  Lemma build_nodup : NoDup (map ukey (build is)).
  Proof. rewrite build_eq. apply ignore_all, replace_all_nodup. Qed.

  (** Every ancestor has a row: one with the directory bit, or one with the header offset of some entry below. *)
  Lemma build_ancestor r pre n rest : In r rows -> r_path r = folder_of (pre ++ n :: rest) -> Forall proper_name (pre ++ n :: rest) ->
    (exists r', In r' (build is) /\ r_path r' = folder_of pre /\ r_name r' = n /\ has_dir_bit r' = true /\ In r' rows) \/
    (exists r0 rest0 r', In r0 rows /\ r_path r0 = folder_of (pre ++ n :: rest0) /\ Forall proper_name (pre ++ n :: rest0) /\
       In r' (build is) /\
       ukey r' = ukey (folder_row (folder_of pre, n, r_offsetheader r0, r_offset r0)) /\
       ((forall r'', In r'' rows -> ukey r'' <> ukey r') -> r' = folder_row (folder_of pre, n, r_offsetheader r0, r_offset r0))).
  Proof.
    intros Hr Hp Hl. destruct (inserts_inv is) as ((_ & P2 & P3 & P4) & _).
    assert (Hk : In (folder_of pre, n) (map pkey (i_parents (fold_left insert is empty_index)))).
    { apply (P2 r); [assumption|]. rewrite Hp. apply parent_pairs_spec; [assumption|]. eauto. }
    apply in_map_iff in Hk as ([[[a b] oh] o] & Ek & Hk). cbn in Ek. injection Ek as -> ->.
    destruct (existsb (fun r => has_dir_bit r && pair_eqb (folder_of pre, n) (r_path r, r_name r)) (fold_left insert_or_replace rows [])) eqn:E.
    - left. apply existsb_exists in E as (r' & Hr' & E). apply andb_true_iff in E as [E1 E2].
      destruct (pair_eqb_spec (folder_of pre, n) (r_path r', r_name r')) as [E|]; [|discriminate]. injection E as -> ->.
      exists r'. split; [now apply build_keeps|]. split; [reflexivity|]. split; [reflexivity|]. split; [assumption|]. apply replace_all_In in Hr' as (p1 & p2 & Er & _). fold rows in Er. rewrite Er.
      apply in_app_iff; right; now left.
    - right. destruct (P3 _ _ _ _ Hk) as (r0 & Hr0 & Hp0 & -> & ->).
      destruct (backend_path r0 (Hback r0 Hr0)) as (loc & Hl0 & Eloc). rewrite Eloc in Hp0.
      apply (parent_pairs_spec loc _ n Hl0) in Hp0 as (pre' & rest' & -> & Epre).
      assert (Hpre : pre = pre').
      { apply folder_of_inj; [apply Forall_app in Hl; apply Hl|apply Forall_app in Hl0; apply Hl0|assumption]. }
      subst pre'.
      set (new := filter (fun p => negb (existsb (fun r => has_dir_bit r && pair_eqb (pkey p) (r_path r, r_name r))
                                             (fold_left insert_or_replace rows [])))
                         (i_parents (fold_left insert is empty_index))).
      assert (Hin : In (folder_row (folder_of pre, n, r_offsetheader r0, r_offset r0)) (map folder_row new)).
      { apply in_map. unfold new. apply filter_In. split; [assumption|]. cbn [pkey]. now rewrite E. }
      destruct (ignore_all (map folder_row new) (fold_left insert_or_replace rows [])) as (_ & _ & I3 & I4 & _).
      destruct (I3 _ Hin) as (r' & Hr' & Ek). exists r0, rest', r'. repeat split; auto.
      + rewrite build_eq. exact Hr'.
      + intros Hno. assert (Hf : In (folder_row (folder_of pre, n, r_offsetheader r0, r_offset r0)) (build is)).
        { rewrite build_eq. apply I4; [assumption| |].
          - intros x Hx E'. apply replace_all_In in Hx as (p1 & p2 & Ex & _). apply (Hno x); [|congruence]. fold rows in Ex. rewrite Ex.
            apply in_app_iff; right; now left.
          - rewrite map_map. assert (En : NoDup (map pkey new)) by (unfold new; now apply nodup_filter_map).
            revert En. clear. induction new as [|[[[a b] oh] o] l IH]; cbn; intros H; [constructor|]. inversion H as [|? ? H1 H2]; subst.
            constructor; [|auto]. intros Hin. apply H1. apply in_map_iff in Hin as ([[[a' b'] oh'] o'] & Ex & Hx). cbn in Ex. injection Ex as -> -> _.
            apply in_map_iff. exists (a, b, oh', o'). auto. }
        pose proof build_nodup as Hnd. assert (Hr'' : In r' (build is)) by (rewrite build_eq; exact Hr').
        revert Hnd Hf Hr'' Ek. generalize (build is) as l. generalize (folder_row (folder_of pre, n, r_offsetheader r0, r_offset r0)) as x. clear.
        intros x l. induction l as [|y l IH]; cbn; intros H Hx Hr E; [destruct Hx|]. inversion H as [|? ? H1 H2]; subst.
        destruct Hx as [->|Hx], Hr as [->|Hr]; auto.
        * exfalso. apply H1. rewrite <- E. now apply in_map.
        * exfalso. apply H1. rewrite E. now apply in_map.
  Qed.

  Lemma build_names : simple_names (build is).
  Proof.
    intros r Hr. apply build_from in Hr as [H|(r0 & pre & n & rest & _ & _ & Hl & -> & _)].
    - apply replace_all_In in H as (p1 & p2 & E & _). apply (Hback r). fold rows in E. rewrite E. apply in_app_iff; right; now left.
    - cbn. apply Forall_app in Hl as [_ Hl]. inversion Hl as [|? ? Hn _]. apply Hn.
  Qed.

  Lemma build_unique : unique_rows (build is).
  Proof.
    intros i j a b Ha Hb E1 E2. pose proof build_nodup as Hnd. pose proof build_names as Hs.
    assert (Hk : ukey a = ukey b).
    { apply nth_error_In in Ha, Hb. unfold ukey. unfold full_path in E1 at 2. apply (full_path_split a) in E1 as [-> ->]; auto. now rewrite E2. }
    rewrite NoDup_nth_error in Hnd. apply Hnd.
    - rewrite map_length. apply nth_error_Some. congruence.
    - rewrite !nth_error_map, Ha, Hb. cbn. now rewrite Hk.
  Qed.
End Built.

Lemma same_entry_ukey a b : ~ In slash (r_name a) -> ~ In slash (r_name b) -> (same_entry a b <-> ukey a = ukey b).
Proof.
  intros Ha Hb. unfold same_entry, ukey. unfold full_path at 2. rewrite (full_path_split a) by assumption. split.
  - intros [[-> ->] ->]. reflexivity.
  - intros E. injection E as -> -> ->. auto.
Qed.

Lemma replace_all_last rows r : (forall r, In r rows -> ~ In slash (r_name r)) ->
  (In r (fold_left insert_or_replace rows []) <-> last_inserted r rows).
Proof.
  intros Hs. rewrite replace_all_In. unfold last_inserted. split; intros (pre & post & E & H); exists pre, post; (split; [assumption|]);
    intros r' Hr' Hk; apply (H r' Hr'); apply same_entry_ukey in Hk || apply same_entry_ukey; auto; subst; apply Hs; apply in_app_iff; right; cbn; tauto.
Qed.

Lemma nonroot_below r0 pre n rest : backend_row r0 -> r_path r0 = folder_of (pre ++ n :: rest) -> Forall proper_name (pre ++ n :: rest) ->
  exists rest' name, member_row r0 (pre ++ n :: rest') name.
Proof.
  intros [Hs [[E _]|(loc & name & Hm)]] Hp Hl.
  - rewrite E in Hp. destruct (pre ++ n :: rest) eqn:E2; [destruct pre; discriminate|discriminate Hp].
  - pose proof (member_row_split r0 loc name Hs Hm) as [E1 _]. rewrite E1 in Hp. apply folder_of_inj in Hp; [|apply Hm|assumption].
    subst loc. eauto.
Qed.

Lemma folder_row_generated r0 pre n rest : backend_row r0 -> r_path r0 = folder_of (pre ++ n :: rest) -> Forall proper_name (pre ++ n :: rest) ->
  generated_for r0 (folder_row (folder_of pre, n, r_offsetheader r0, r_offset r0)) pre n.
Proof.
  intros Hb Hp Hl. repeat split. - cbn. unfold full_path. cbn. now rewrite written_snoc. - now apply (nonroot_below r0 pre n rest).
Qed.

Lemma built_rows is : (forall r, In r (inserted_rows is) -> backend_row r) ->
  (forall r, last_inserted r (inserted_rows is) -> In r (build is)) /\
  (forall r, In r (build is) -> last_inserted r (inserted_rows is) \/
     exists below pre n, In below (inserted_rows is) /\ generated_for below r pre n /\
       forall r', last_inserted r' (inserted_rows is) -> full_path r' = full_path r -> is_dir_mode (r_mode r') = false) /\
  simple_names (build is) /\ unique_rows (build is).
Proof.
  intros Hb. assert (Hs : forall r, In r (inserted_rows is) -> ~ In slash (r_name r)) by (intros r Hr; apply (Hb r Hr)).
  split; [|split; [|split]].
  - intros r Hr. apply build_keeps. now apply replace_all_last.
  - intros r Hr. apply (build_from is Hb) in Hr as [H|(r0 & pre & n & rest & Hr0 & Hp & Hl & -> & Hn)].
    + left. now apply replace_all_last.
    + right. exists r0, pre, n. split; [assumption|]. split; [now apply (folder_row_generated r0 pre n rest); auto|].
      intros r' Hr' E. assert (Hin : In r' (inserted_rows is)) by (destruct Hr' as (p1 & p2 & -> & _); apply in_app_iff; right; now left).
      apply replace_all_last in Hr'; [|assumption]. specialize (Hn r' Hr').
      unfold full_path at 2 in E. cbn in E. apply (full_path_split r' (folder_of pre) n) in E as [E1 E2].
      * specialize (Hn E1 E2). unfold has_dir_bit in Hn. apply negb_false_iff, Z.eqb_eq in Hn.
        unfold is_dir_mode. apply Z.eqb_neq. intros E. assert (E3 : Z.land (Z.land (r_mode r') S_IFMT) 16384 = 16384) by (rewrite E; reflexivity).
        rewrite <- Z.land_assoc in E3. change (Z.land S_IFMT 16384) with 16384 in E3. lia.
      * now apply Hs.
      * apply Forall_app in Hl as [_ Hl]. inversion Hl as [|? ? Hx _]. apply Hx.
  - now apply build_names.
  - now apply build_unique.
Qed.

Lemma dir_has_bit r : is_dir_mode (r_mode r) = true -> has_dir_bit r = true.
Proof.
  unfold is_dir_mode, has_dir_bit. intros H. apply Z.eqb_eq in H. apply negb_true_iff, Z.eqb_neq. intros E.
  assert (E3 : Z.land (Z.land (r_mode r) S_IFMT) 16384 = 16384) by (rewrite H; reflexivity).
  rewrite <- Z.land_assoc in E3. change (Z.land S_IFMT 16384) with 16384 in E3. lia.
Qed.

(** A path with a row can be looked up, and the newest row is one of its rows. *)
Lemma lookup_newest now uid gid sh files loc n r : any_order sh -> simple_names files -> unique_rows files ->
  Forall proper_name loc -> proper_name n -> In r files -> r_path r = folder_of loc -> r_name r = n ->
  exists r', In r' files /\ full_path r' = written (loc ++ [n]) /\
    lookup now uid gid sh files (written (loc ++ [n])) 0 = Some (row_to_file_info r').
Proof.
  intros Hsh Hs Hu Hl Hn Hr E1 E2. set (p := written (loc ++ [n])).
  assert (Hd : denotes p = loc ++ [n]) by (apply denotes_written; apply Forall_app; auto).
  assert (Hp : starts_with $"../" p = false) by reflexivity.
  assert (Hroot : denotes p <> []) by (rewrite Hd; destruct loc; discriminate).
  set (occ := sort_by r_offsetheader (filter (at_path p) files)).
  rewrite (lookup_spec now uid gid sh Hsh files p Hs Hp Hroot occ (occurrences_exist _ _ Hu)).
  change (if 0 <=? 0 then nth_error (rev occ) (Z.to_nat (- 0)) else nth_error occ (Z.to_nat (0 - 1))) with (nth_error (rev occ) 0).
  assert (Hin : In r occ).
  { apply (Permutation_in _ (Permutation_sym (sort_perm _ _))). apply filter_In. split; [assumption|].
    unfold at_path. apply str_eqb_eq. unfold full_path. rewrite Hd, E1, E2. now rewrite written_snoc. }
  apply in_rev in Hin. destruct (rev occ) as [|x l] eqn:Er; [destruct Hin|]. exists x. cbn [nth_error option_map].
  assert (Hx : In x occ) by (apply in_rev; rewrite Er; now left).
  apply (Permutation_in _ (sort_perm _ _)) in Hx. apply filter_In in Hx as [Hx Ha]. split; [assumption|]. split; [|reflexivity].
  unfold at_path in Ha. apply str_eqb_eq in Ha. now rewrite Hd in Ha.
Qed.

Lemma listed_of_row sh files loc n r : any_order sh -> simple_names files ->
  Forall proper_name loc -> proper_name n -> In r files -> r_path r = folder_of loc -> r_name r = n ->
  exists d, index_list sh files (written loc) = Some d /\ In n (dkeys d).
Proof.
  intros Hsh Hs Hl Hn Hr E1 E2. change (index_list sh files (written loc)) with (listing row_to_file_info sh files (written loc)).
  assert (Hp : starts_with $"../" (written loc) = false) by reflexivity.
  assert (Hf : in_folder (written loc) r = true) by (unfold in_folder; rewrite denotes_written by assumption; rewrite E1; apply str_eqb_refl).
  pose proof (listing_None row_to_file_info sh Hsh files (written loc) Hp) as HN.
  destruct (listing row_to_file_info sh files (written loc)) as [d|] eqn:E.
  - exists d. split; [reflexivity|]. apply (listing_keys row_to_file_info sh Hsh files (written loc) Hp d E). split; [apply Hn|].
    exists r. auto.
  - exfalso. destruct HN as [HN _]. specialize (HN eq_refl). assert (Hin : In r (filter (in_folder (written loc)) files)) by (apply filter_In; auto).
    rewrite HN in Hin. destruct Hin.
Qed.

Lemma row_for_prefix is r loc name pre n rest : (forall r, In r (inserted_rows is) -> backend_row r) -> In r (inserted_rows is) ->
  member_row r loc name -> loc ++ [name] = pre ++ n :: rest ->
  exists r', In r' (build is) /\ r_path r' = folder_of pre /\ r_name r' = n.
Proof.
  intros Hb Hr Hm E. pose proof (member_row_split r loc name (proj1 (Hb r Hr)) Hm) as [E1 E2].
  destruct rest as [|y rest] using rev_ind.
  - apply app_inj_tail in E as [-> ->]. destruct (replace_all_covers _ _ Hr) as (r' & Hr' & Ek). exists r'.
    split; [now apply build_keeps|]. injection Ek as -> -> _. auto.
  - clear IHrest. rewrite app_comm_cons, app_assoc in E. apply app_inj_tail in E as [-> ->].
    destruct (build_ancestor is Hb r pre n rest Hr E1) as [(r' & H1 & H2 & H3 & _)|(r0 & rest0 & r' & _ & _ & _ & H1 & H2 & _)]; [apply Hm|eauto|].
    exists r'. cbn in H2. injection H2 as -> -> _. auto.
Qed.

Lemma all_reached is sh1 sh2 now uid gid : any_order sh1 -> any_order sh2 -> (forall r, In r (inserted_rows is) -> backend_row r) ->
  forall r loc name, In r (inserted_rows is) -> member_row r loc name ->
  reached (fun p => option_map dkeys (index_list sh1 (build is) p)) (loc ++ [name]) /\
  (forall pre rest, loc ++ [name] = pre ++ rest -> lookup now uid gid sh2 (build is) (written pre) 0 <> None).
Proof.
  intros Hsh1 Hsh2 Hb r loc name Hr Hm.
  assert (Hpn : Forall proper_name (loc ++ [name])) by (apply Forall_app; split; [apply Hm|constructor; [apply Hm|constructor]]).
  assert (G : forall pre rest, loc ++ [name] = pre ++ rest -> reached (fun p => option_map dkeys (index_list sh1 (build is) p)) pre /\
            lookup now uid gid sh2 (build is) (written pre) 0 <> None).
  { induction pre as [|n pre IH] using rev_ind; intros rest E; [split; [constructor|discriminate]|].
    rewrite <- app_assoc in E. cbn [app] in E. destruct (IH _ E) as [IH1 _].
    destruct (row_for_prefix is r loc name pre n rest Hb Hr Hm E) as (r' & Hr' & E1 & E2).
    rewrite E in Hpn. apply Forall_app in Hpn as [Hp1 Hp2]. pose proof (Forall_inv Hp2) as Hn.
    split.
    - destruct (listed_of_row sh1 (build is) pre n r' Hsh1 (build_names is Hb) Hp1 Hn Hr' E1 E2) as (d & Ed & Hd).
      apply (reached_entry _ pre (dkeys d) n); [assumption|now rewrite Ed|assumption].
    - destruct (lookup_newest now uid gid sh2 (build is) pre n r' Hsh2 (build_names is Hb) (build_unique is Hb) Hp1 Hn Hr' E1 E2) as (r'' & _ & _ & ->).
      discriminate. }
  split; [apply (G (loc ++ [name]) []); now rewrite app_nil_r|]. intros pre rest E. now apply (G pre rest).
Qed.

Lemma ancestors_are_folders is sh now uid gid : any_order sh -> (forall r, In r (inserted_rows is) -> backend_row r) ->
  forall r loc name, In r (inserted_rows is) -> member_row r loc name ->
  forall pre n rest, loc = pre ++ n :: rest ->
  (forall r', In r' (inserted_rows is) -> full_path r' = written (pre ++ [n]) -> is_dir_mode (r_mode r') = true) ->
  exists i, lookup now uid gid sh (build is) (written (pre ++ [n])) 0 = Some i /\ is_dir_mode (fi_mode i) = true.
Proof.
  intros Hsh Hb r loc name Hr Hm pre n rest E Hd.
  destruct (row_for_prefix is r loc name pre n (rest ++ [name]) Hb Hr Hm) as (r' & Hr' & E1 & E2).
  { rewrite E, <- app_assoc. reflexivity. }
  assert (Hpn : Forall proper_name loc) by apply Hm. rewrite E in Hpn. apply Forall_app in Hpn as [Hp1 Hp2]. pose proof (Forall_inv Hp2) as Hn.
  destruct (lookup_newest now uid gid sh (build is) pre n r' Hsh (build_names is Hb) (build_unique is Hb) Hp1 Hn Hr' E1 E2) as (r'' & Hr'' & Ef & ->).
  exists (row_to_file_info r''). split; [reflexivity|]. cbn [row_to_file_info fi_mode].
  apply (built_rows is Hb) in Hr'' as [Hl|(below & pre' & n' & _ & Hg & _)].
  - apply Hd; [|assumption]. destruct Hl as (p1 & p2 & -> & _). apply in_app_iff; right; now left.
  - destruct Hg as (_ & -> & _). reflexivity.
Qed.

(** With one path per header offset, some version of each ancestor is a folder. *)
Lemma some_version_is_folder is : (forall r, In r (inserted_rows is) -> backend_row r) ->
  (forall a b, In a (inserted_rows is) -> In b (inserted_rows is) -> r_offsetheader a = r_offsetheader b -> full_path a = full_path b) ->
  forall r loc name, In r (inserted_rows is) -> member_row r loc name ->
  forall pre n rest, loc = pre ++ n :: rest ->
  exists r', In r' (build is) /\ full_path r' = written (pre ++ [n]) /\ has_dir_bit r' = true.
Proof.
  intros Hb Hu r loc name Hr Hm pre n rest E. pose proof (member_row_split r loc name (proj1 (Hb r Hr)) Hm) as [E1 E2]. rewrite E in E1.
  assert (Hpn : Forall proper_name loc) by apply Hm. rewrite E in Hpn.
  destruct (build_ancestor is Hb r pre n rest Hr E1 Hpn) as [(r' & H1 & H2 & H3 & H4 & _)|(r0 & rest0 & r' & H0 & H1 & H2 & H3 & H4 & H5)].
  - exists r'. split; [assumption|]. split; [|assumption]. unfold full_path. rewrite H2, H3. now rewrite written_snoc.
  - assert (H6 : r' = folder_row (folder_of pre, n, r_offsetheader r0, r_offset r0)).
    2: { rewrite H6 in H3. exists (folder_row (folder_of pre, n, r_offsetheader r0, r_offset r0)). split; [assumption|]. split; [|reflexivity].
      unfold full_path. cbn. now rewrite written_snoc. }
    { apply H5. intros x Hx Ex. rewrite H4 in Ex. cbn in Ex. injection Ex as Ea Eb Ec.
      assert (Ef : full_path x = full_path r0) by (apply Hu; assumption).
      unfold full_path in Ef at 2. rewrite H1 in Ef.
      assert (Hx2 : full_path x = written (pre ++ [n])) by (unfold full_path; rewrite Ea, Eb; now rewrite written_snoc).
      rewrite Hx2 in Ef. rewrite <- written_snoc in Ef.
      destruct (nonroot_below r0 pre n rest0 (Hb r0 H0) H1 H2) as (rest' & nm & Hm0).
      pose proof (member_row_split r0 _ nm (proj1 (Hb r0 H0)) Hm0) as [E3 E4]. rewrite E3 in H1.
      apply folder_of_inj in H1; [|apply Hm0|assumption]. apply app_inv_head in H1. injection H1 as ->.
      rewrite E4 in Ef. apply written_inj in Ef.
      * rewrite <- app_assoc in Ef. apply app_inv_head in Ef. cbn in Ef. injection Ef as Ef. destruct rest0; discriminate.
      * apply Forall_app in H2 as [H2a H2b]. apply Forall_app. split; [assumption|]. constructor; [exact (Forall_inv H2b)|constructor].
      * apply Forall_app. split; [assumption|]. constructor; [apply Hm0|constructor]. }
Qed.
