From Coq Require Import Ascii String Sorting.Sorted Sorting.Permutation.
From Verif Require Import PyBase PyDict PyStr Path_Model Path_Spec Path_Proofs FileInfo Strip_Model Index_Model Index_Spec Index_Proofs Build_Proofs
  Tar_Model Tar_Spec Tar_Proofs Append_Model Append_Spec Append_Proofs.
Local Open Scope Z_scope.

Definition placed_member : Type := (nat * member * list block)%type.
Definition shift (k : nat) (x : placed_member) : placed_member := let '(pos, m, b) := x in ((k + pos)%nat, m, b).
Definition ends (x : placed_member) : nat := let '(pos, m, _) := x in (pos + 1 + m_extra m + m_blocks m)%nat.
Definition begins (x : placed_member) : nat := let '(pos, _, _) := x in pos.

(** ** The layout of an archive *)
Lemma tarball_sorted bs l : tarball bs l -> StronglySorted (fun x y => (ends x <= begins y)%nat) l.
Proof.
  induction 1 as [|m ext body rest l Ee Eb Ht IH]; [constructor|]. constructor.
  - clear - IH. induction IH as [|x l S IH H]; [constructor|]. cbn [map]. constructor; [exact IH|]. apply Forall_forall. intros y Hy.
    apply in_map_iff in Hy as (z & <- & Hz). rewrite Forall_forall in H. specialize (H z Hz). destruct x as [[p1 m1] b1], z as [[p2 m2] b2]. cbn in *. lia.
  - apply Forall_forall. intros y Hy. apply in_map_iff in Hy as ([[p2 m2] b2] & <- & Hz). cbn. lia.
Qed.

Lemma tarball_split bs l : tarball bs l -> forall l1 x l2, l = l1 ++ x :: l2 ->
  exists front rest l2', bs = front ++ rest /\ tarball rest l2' /\ l2 = map (shift (length front)) l2' /\ length front = ends x.
Proof.
  induction 1 as [|m ext body rest l Ee Eb Ht IH]; intros l1 x l2 E; [destruct l1; discriminate|].
  destruct l1 as [|y l1].
  - injection E as <- <-. exists (Head m :: ext ++ body), rest, l. split; [cbn [app]; now rewrite <- app_assoc|]. split; [assumption|].
    assert (L : length (Head m :: ext ++ body) = S (m_extra m + m_blocks m)) by (cbn [length]; rewrite app_length; lia).
    split; [|rewrite L; cbn; lia]. rewrite L. apply map_ext. intros [[p m'] b]. cbn. reflexivity.
  - injection E as <- E. apply map_eq_app in E as (l1' & l2' & -> & <- & E). destruct l2' as [|x' l2']; [discriminate|]. cbn [map] in E. injection E as <- <-.
    destruct (IH l1' x' l2' eq_refl) as (front & rest' & l3 & -> & Ht' & -> & L).
    exists (Head m :: ext ++ body ++ front), rest', l3. split; [cbn [app]; now rewrite <- !app_assoc|]. split; [assumption|].
    assert (Lf : length (Head m :: ext ++ body ++ front) = (1 + m_extra m + m_blocks m + length front)%nat) by (cbn [length]; rewrite !app_length; lia).
    rewrite Lf. split.
    + rewrite map_map. apply map_ext. intros [[p m'] b]. cbn. f_equal. f_equal. lia.
    + destruct x' as [[p m'] b]. cbn in *. lia.
Qed.

(** ** The rows of an archive that is not mounted recursively *)
Section Rows.
  Variable transform : str -> str.
  Definition member_rows (x : placed_member) : list row := let '(pos, m, _) := x in file_rows transform [] 0 0 pos m.

  Lemma file_row_shift stream k pos m : stream = 512 * Z.of_nat k ->
    file_row transform [] stream 0 pos m = file_row transform [] 0 0 (k + pos) m.
  Proof.
    intros ->. unfold file_row. destruct (split_last _) as [p n]. f_equal; lia.
  Qed.
  Lemma file_rows_shift stream k pos m : stream = 512 * Z.of_nat k ->
    file_rows transform [] stream 0 pos m = file_rows transform [] 0 0 (k + pos) m.
  Proof. intros E. unfold file_rows. now rewrite (file_row_shift stream k). Qed.

  Variables (strip : bool) (remount : option (str -> str)).
  Lemma part_rows archive bs l stream k : tarball bs l -> stream = 512 * Z.of_nat k ->
    index_part transform strip remount false archive 1 0 bs [] stream = [Batch (flat_map member_rows (map (shift k) l))].
  Proof.
    intros Ht E. cbn [index_part]. rewrite (members_tarball bs l Ht). cbn [Nat.eqb negb andb flat_map app].
    do 2 f_equal. unfold heads. clear Ht. induction l as [|[[p m] b] l IH]; [reflexivity|]. cbn [map flat_map]. rewrite <- IH. f_equal.
    rewrite (file_rows_shift stream k); [reflexivity|assumption].
  Qed.

  Lemma shift_0 l : map (shift 0) l = l.
  Proof. rewrite <- (map_id l) at 2. apply map_ext. intros [[p m] b]. reflexivity. Qed.

  (** The fields of the rows of a member. *)
  Lemma member_rows_In x r : In r (member_rows x) ->
    let '(pos, m, _) := x in
    r_offset r = 512 * Z.of_nat (pos + 1 + m_extra m) /\ backend_row r /\
    (r = file_row transform [] 0 0 pos m \/ r_offsetheader r = 512 * Z.of_nat pos + 1 /\ has_dir_bit r = true /\ full_path r = full_path (file_row transform [] 0 0 pos m)).
  Proof.
    destruct x as [[pos m] b]. unfold member_rows, file_rows. pose proof (file_row_fields transform [] 0 0 pos m) as (F1 & F2 & F3 & F4 & _).
    pose proof (file_row_backend transform [] 0 0 pos m) as B.
    assert (G : r_offset (file_row transform [] 0 0 pos m) = 512 * Z.of_nat (pos + 1 + m_extra m)) by lia.
    destruct (char_eqb _ _); [intros [<-|[<-|[]]]|intros [<-|[]]]; cbn [r_offset r_offsetheader]; (split; [exact G|]); (split; [exact B|]); try now left.
    right. split; [lia|]. split; [|reflexivity]. unfold has_dir_bit. cbn [r_mode]. apply negb_true_iff, Z.eqb_neq. intros E.
    assert (T : Z.testbit (Z.land (Z.lor (m_mode m) S_IFDIR) 16384) 14 = true) by (rewrite Z.land_spec, Z.lor_spec, orb_comm; reflexivity).
    rewrite E in T. discriminate T.
  Qed.

  Lemma member_rows_header x r : In r (member_rows x) -> exists t, 0 <= t <= 1 /\ r_offsetheader r = 512 * Z.of_nat (begins x) + t.
  Proof.
    intros H. apply member_rows_In in H. destruct x as [[pos m] b]. destruct H as (_ & _ & [->|(-> & _)]); [|exists 1; cbn; lia].
    pose proof (file_row_fields transform [] 0 0 pos m) as (_ & _ & F3 & _). exists 0. rewrite F3. cbn. lia.
  Qed.

  Lemma rows_sorted l : StronglySorted (fun x y => (ends x <= begins y)%nat) l -> StronglySorted (fun a b => r_offsetheader a < r_offsetheader b) (flat_map member_rows l).
  Proof.
    induction 1 as [|x l S IH H]; [constructor|]. cbn [flat_map].
    assert (Hs : StronglySorted (fun a b => r_offsetheader a < r_offsetheader b) (member_rows x)).
    { destruct x as [[pos m] b]. unfold member_rows, file_rows. destruct (char_eqb _ _); repeat constructor. cbn. lia. }
    assert (Hc : forall a b, In a (member_rows x) -> In b (flat_map member_rows l) -> r_offsetheader a < r_offsetheader b).
    { intros a b Ha Hb. apply in_flat_map in Hb as (y & Hy & Hb). rewrite Forall_forall in H. specialize (H y Hy).
      apply member_rows_header in Ha as (t & Ht & ->), Hb as (t' & Ht' & ->). destruct x as [[px mx] bx], y as [[py my] by_]. cbn [begins ends] in *. lia. }
    revert Hs Hc. generalize (member_rows x) as la. induction la as [|a la IHa]; intros Hs Hc; [exact IH|]. cbn [app]. inversion Hs as [|? ? Hs' Hf]; subst. constructor.
    - apply IHa; [assumption|]. intros a' b' Ha' Hb'. apply Hc; [now right|assumption].
    - apply Forall_app. split; [assumption|]. apply Forall_forall. intros b Hb. apply Hc; [now left|assumption].
  Qed.

  Lemma sorted_nodup rows : StronglySorted (fun a b => r_offsetheader a < r_offsetheader b) rows -> NoDup (map ukey rows).
  Proof.
    induction 1 as [|x l S IH H]; [constructor|]. cbn [map]. constructor; [|assumption]. intros C. apply in_map_iff in C as (y & E & Hy).
    rewrite Forall_forall in H. specialize (H y Hy). unfold ukey in E. injection E as _ _ E. lia.
  Qed.

  Lemma sorted_one_path rows : StronglySorted (fun a b => r_offsetheader a < r_offsetheader b) rows -> one_path rows.
  Proof.
    induction 1 as [|x l S IH H]; intros a b Ha Hb E; [destruct Ha|]. rewrite Forall_forall in H.
    destruct Ha as [<-|Ha], Hb as [<-|Hb]; [reflexivity| | |now apply IH]; [specialize (H b Hb)|specialize (H a Ha)]; lia.
  Qed.
End Rows.

Lemma finalize_fields st st' : i_files st = i_files st' -> i_filestmp st = i_filestmp st' -> i_parents st = i_parents st' -> finalize st = finalize st'.
Proof. intros E1 E2 E3. unfold finalize. now rewrite E1, E2, E3. Qed.

Lemma build_batches a b : build [Batch (a ++ b)] = build ([Batch a] ++ [Batch b]).
Proof.
  unfold build. destruct (inserted_state [Batch (a ++ b)] empty_index (empty_parents_ok [])) as (A1 & A2 & A3).
  destruct (inserted_state ([Batch a] ++ [Batch b]) empty_index (empty_parents_ok [])) as (B1 & B2 & B3). cbv zeta in *.
  apply finalize_fields; [rewrite A2, B2|rewrite A3, B3; reflexivity|rewrite A1, B1]; unfold inserted_rows; cbn [app flat_map]; now rewrite !app_nil_r.
Qed.

Section Grown.
  Variable transform : str -> str.
  Variables (strip : bool) (remount : option (str -> str)).
  Variables (old new : list block) (l : list placed_member) (last : placed_member) (l' : list placed_member).
  Hypothesis Hold : tarball old (l ++ [last]).
  Hypothesis Hnew : tarball new (l ++ last :: l').
  Let member := let '(_, m, _) := last in m.
  Hypothesis Hplain : plain_data member.

  Let rows1 := flat_map (member_rows transform) (l ++ [last]).
  Let rows2 := flat_map (member_rows transform) l'.
  Let table := build (index_part transform strip remount false old 1 0 old [] 0).
  Let scratch := build (index_part transform strip remount false new 1 0 new [] 0).

  Lemma all_rows : rows1 ++ rows2 = flat_map (member_rows transform) (l ++ last :: l').
  Proof. unfold rows1, rows2. rewrite <- flat_map_app, <- app_assoc. reflexivity. Qed.

  Lemma table_is : table = build [Batch rows1].
  Proof. unfold table. rewrite (part_rows transform strip remount old old _ 0 0 Hold) by lia. now rewrite shift_0. Qed.

  Lemma scratch_is : scratch = build ([Batch rows1] ++ [Batch rows2]).
  Proof. unfold scratch. rewrite (part_rows transform strip remount new new _ 0 0 Hnew) by lia. rewrite shift_0, <- all_rows. apply build_batches. Qed.

  Lemma all_sorted : StronglySorted (fun a b => r_offsetheader a < r_offsetheader b) (rows1 ++ rows2).
  Proof. rewrite all_rows. apply rows_sorted. exact (tarball_sorted _ _ Hnew). Qed.

  Lemma all_backend r : In r (rows1 ++ rows2) -> backend_row r.
  Proof. rewrite all_rows. intros H. apply in_flat_map in H as ([[p m] b] & _ & H). apply member_rows_In in H. tauto. Qed.

  Lemma sorted_app_lt {X} (R : X -> X -> Prop) a b x y : StronglySorted R (a ++ b) -> In x a -> In y b -> R x y.
  Proof.
    induction a as [|z a IH]; intros S Hx Hy; [destruct Hx|]. cbn [app] in S. inversion S as [|? ? S' F]; subst. destruct Hx as [->|Hx]; [|auto].
    rewrite Forall_forall in F. apply F, in_app_iff. now right.
  Qed.
  Lemma sorted_app_l {X} (R : X -> X -> Prop) a b : StronglySorted R (a ++ b) -> StronglySorted R a.
  Proof.
    induction a as [|z a IH]; intros S; [constructor|]. cbn [app] in S. inversion S as [|? ? S' F]; subst. constructor; [auto|].
    apply Forall_app in F. apply F.
  Qed.

  Lemma rows1_later a b : In a (inserted_rows [Batch rows1]) -> In b (inserted_rows [Batch rows2]) -> r_offsetheader a < r_offsetheader b.
  Proof. unfold inserted_rows. cbn [flat_map]. rewrite !app_nil_r. intros Ha Hb. exact (sorted_app_lt _ _ _ a b all_sorted Ha Hb). Qed.

  Lemma inserted_both : inserted_rows [Batch rows1] ++ inserted_rows [Batch rows2] = rows1 ++ rows2.
  Proof. unfold inserted_rows. cbn [flat_map]. now rewrite !app_nil_r. Qed.

  (** The table begins with the rows of the members, in the order of the archive. *)
  Lemma table_rows : exists extra, table = rows1 ++ extra /\ forall r, In r extra -> exists below, In below rows1 /\ r_offset r = r_offset below /\ has_dir_bit r = true.
  Proof.
    rewrite table_is. unfold build. destruct (inserted_state [Batch rows1] empty_index (empty_parents_ok [])) as (E1 & E2 & E3). cbv zeta in *.
    unfold finalize. rewrite E3, E2, E1. cbn [empty_index i_filestmp i_files i_parents fold_left]. unfold inserted_rows. cbn [flat_map]. rewrite !app_nil_r.
    rewrite (replace_fresh rows1 []) by (apply sorted_nodup; exact (sorted_app_l _ _ _ all_sorted)). cbn [app].
    match goal with |- context [fold_left insert_or_ignore ?g rows1] => destruct (ignore_app g rows1) as (extra & -> & H) end.
    exists extra. split; [reflexivity|]. intros r Hr. apply H in Hr. apply in_map_iff in Hr as (p & <- & Hp). apply filter_In in Hp as [Hp _].
    apply parents_from_pairs in Hp. unfold pairs_of in Hp. apply in_flat_map in Hp as (b & Hb & Hp). apply in_map_iff in Hp as ([x y] & <- & _).
    exists b. repeat split. assumption.
  Qed.

  Lemma rows1_offset r : In r rows1 -> let '(pos, m, _) := last in r_offset r <= 512 * Z.of_nat (pos + 1 + m_extra m).
  Proof.
    intros H. unfold rows1 in H. rewrite flat_map_app in H. apply in_app_iff in H as [H|H].
    - apply in_flat_map in H as (x & Hx & H). apply member_rows_In in H. pose proof (sorted_app_lt _ _ _ x last (tarball_sorted _ _ Hold) Hx (or_introl eq_refl)) as L.
      destruct x as [[px mx] bx], last as [[pl ml] bl]. cbn [begins ends] in L. lia.
    - cbn [flat_map] in H. rewrite app_nil_r in H. apply member_rows_In in H. destruct last as [[pl ml] bl]. lia.
  Qed.

  Lemma past_end_is : past_end (fun t => t) table = Ok (Some (512 * Z.of_nat (ends last))).
  Proof.
    destruct table_rows as (extra & -> & Hex). unfold past_end.
    assert (Hsplit : exists d, rows1 = flat_map (member_rows transform) l ++ (let '(pos, m, _) := last in file_row transform [] 0 0 pos m) :: d /\
      forall r, In r d -> In r rows1).
    { assert (E0 : exists d, member_rows transform last = (let '(pos, m, _) := last in file_row transform [] 0 0 pos m) :: d).
      { destruct last as [[pos m] b]. unfold member_rows, file_rows. destruct (char_eqb _ _); eauto. }
      destruct E0 as [d E0]. exists d. unfold rows1. rewrite flat_map_app. cbn [flat_map]. rewrite app_nil_r, E0. split; [reflexivity|].
      intros r Hr. apply in_app_iff. right. now right. }
    destruct Hsplit as (d & E & Hd). set (x := let '(pos, m, _) := last in file_row transform [] 0 0 pos m) in *.
    assert (Ox : let '(pos, m, _) := last in r_offset x = 512 * Z.of_nat (pos + 1 + m_extra m) /\ r_size x = m_size m /\ r_issparse x = m_sparse m).
    { destruct last as [[pos m] b]. unfold x. destruct (file_row_fields transform [] 0 0 pos m) as (_ & _ & _ & F4 & F5 & _).
      split; [lia|]. split; [exact F5|]. unfold file_row. now destruct (split_last _). }
    rewrite E, <- app_assoc. cbn [app].
    destruct (sort_first (fun r => - r_offset r) (flat_map (member_rows transform) l) x (d ++ extra)) as (t & ->).
    - intros y Hy. apply in_flat_map in Hy as (z & Hz & Hy). apply member_rows_In in Hy.
      pose proof (sorted_app_lt _ _ _ z last (tarball_sorted _ _ Hold) Hz (or_introl eq_refl)) as L.
      destruct z as [[pz mz] bz], last as [[pl ml] bl]. cbn [begins ends] in L. lia.
    - intros y Hy. apply in_app_iff in Hy as [Hy|Hy].
      + apply Hd, rows1_offset in Hy. destruct last as [[pl ml] bl]. lia.
      + destruct (Hex y Hy) as (b & Hb & -> & _). apply rows1_offset in Hb. destruct last as [[pl ml] bl]. lia.
    - unfold member in Hplain. destruct last as [[pos m] b]. destruct Ox as (-> & -> & ->). destruct Hplain as (-> & P1 & P2). do 2 f_equal. cbn [ends].
      unfold round_up. destruct (Z.eqb_spec ((512 * Z.of_nat (pos + 1 + m_extra m) + m_size m) mod 512) 0) as [M|M].
      + apply Z.mod_divide in M as [q M]; [|lia]. lia.
      + pose proof (Z.div_mod (512 * Z.of_nat (pos + 1 + m_extra m) + m_size m) 512 ltac:(lia)) as D.
        pose proof (Z.mod_pos_bound (512 * Z.of_nat (pos + 1 + m_extra m) + m_size m) 512 ltac:(lia)). lia.
  Qed.

  (** The part that is read for the update. *)
  Lemma update_is : update transform strip remount false 1 new table (512 * Z.of_nat (ends last)) = update_table table [Batch rows2].
  Proof.
    destruct (tarball_split new _ Hnew l last l' eq_refl) as (front & rest & l2 & En & Ht & El & Lf). unfold update, update_table. do 3 f_equal.
    assert (Er : region new (512 * Z.of_nat (ends last)) (file_size new - 512 * Z.of_nat (ends last)) = rest).
    { unfold region, file_size. rewrite En, app_length, <- Lf.
      replace ((512 * Z.of_nat (length front + length rest) - 512 * Z.of_nat (length front)) / 512) with (Z.of_nat (length rest))
        by (apply Z.div_unique_exact; lia).
      replace (512 * Z.of_nat (length front) / 512) with (Z.of_nat (length front)) by (apply Z.div_unique_exact; lia).
      rewrite !Nat2Z.id, skipn_app_exact. apply firstn_all. }
    rewrite Er, (part_rows transform strip remount new rest l2 _ (ends last) Ht eq_refl). unfold rows2. rewrite El, Lf. reflexivity.
  Qed.

  Lemma next_block : match l' with [] => True | _ => exists m rest, skipn (ends last) new = Head m :: rest end.
  Proof.
    destruct (tarball_split new _ Hnew l last l' eq_refl) as (front & rest & l2 & En & Ht & El & Lf). rewrite En, <- Lf, skipn_app_exact.
    destruct l' as [|x l1]; [exact I|]. destruct Ht; [discriminate|]. eauto.
  Qed.

  Lemma update_fits : 512 * Z.of_nat (ends last) <= file_size new.
  Proof.
    destruct (tarball_split new _ Hnew l last l' eq_refl) as (front & rest & l2 & En & Ht & El & Lf). unfold file_size. rewrite En, app_length. lia.
  Qed.

  (** Checking the rows of the old part finds them unchanged. *)
  Lemma row_valid r : In r table -> regular_row r = true -> check_row transform new r = Valid.
  Proof.
    intros Hr Hreg. destruct table_rows as (extra & Et & Hex). rewrite Et in Hr. apply in_app_iff in Hr as [Hr|Hr].
    2: { destruct (Hex r Hr) as (_ & _ & _ & D). exfalso. unfold regular_row in Hreg. apply Z.eqb_eq in Hreg. unfold has_dir_bit in D. apply negb_true_iff, Z.eqb_neq in D.
         apply D. replace (Z.land (r_mode r) 16384) with (Z.land (Z.land (r_mode r) S_IFMT) 16384) by (rewrite <- Z.land_assoc; reflexivity). rewrite Hreg. reflexivity. }
    unfold rows1 in Hr. apply in_flat_map in Hr as (x & Hx & Hr). apply member_rows_In in Hr. destruct x as [[pos m] b]. destruct Hr as (Ho & _ & [E|(_ & D & _)]).
    2: { exfalso. unfold regular_row in Hreg. apply Z.eqb_eq in Hreg. unfold has_dir_bit in D. apply negb_true_iff, Z.eqb_neq in D.
         apply D. replace (Z.land (r_mode r) 16384) with (Z.land (Z.land (r_mode r) S_IFMT) 16384) by (rewrite <- Z.land_assoc; reflexivity). rewrite Hreg. reflexivity. }
    assert (Hin : In (pos, m, b) (l ++ last :: l')) by (apply in_app_iff; apply in_app_iff in Hx as [Hx|[<-|[]]]; [now left|right; now left]).
    destruct (tarball_body new _ Hnew pos m b Hin) as (_ & N & _).
    assert (Eh : r_offsetheader r = 512 * Z.of_nat pos) by (rewrite E; destruct (file_row_fields transform [] 0 0 pos m) as (_ & _ & F3 & _); lia).
    unfold check_row. rewrite Eh, Ho. replace (512 * Z.of_nat pos / 512) with (Z.of_nat pos) by (apply Z.div_unique_exact; lia). rewrite Nat2Z.id.
    assert (Sk : exists t, skipn pos new = Head m :: t).
    { clear - N. revert new N. induction pos as [|p IH]; intros [|y bs] N; cbn in N; try discriminate; [injection N as ->; cbn; eauto|cbn [skipn]; auto]. }
    destruct Sk as [t Sk]. rewrite Sk. set (c := Z.max 1 _). assert (Hc : exists k, Z.to_nat c = S k) by (exists (Z.to_nat c - 1)%nat; unfold c; lia).
    destruct Hc as [k ->]. cbn [firstn first_header]. rewrite (file_row_shift transform _ pos 0 m eq_refl), Nat.add_0_r.
    assert (Dp : r_recursiondepth r = 0) by (rewrite E; unfold file_row; now destruct (split_last _)). rewrite Dp. cbn [Z.leb Z.compare andb].
    rewrite <- E. unfold same_header. rewrite !str_eqb_refl, !Z.eqb_refl, Bool.eqb_reflx. reflexivity.
  Qed.

  Lemma rows_valid rs : (forall r, In r rs -> In r table /\ regular_row r = true) -> check_rows transform new rs = Valid.
  Proof.
    induction rs as [|r rs IH]; intros H; [reflexivity|]. cbn [check_rows]. destruct (H r (or_introl eq_refl)) as [H1 H2]. rewrite (row_valid r H1 H2).
    apply IH. intros x Hx. apply H. now right.
  Qed.

  Lemma updated_rows : let U := update_table table [Batch rows2] in
    (forall r, In r scratch -> In r U) /\
    (forall r, In r U -> In r scratch \/
       (exists below pre n, In below rows1 /\ generated_for below r pre n) /\
       exists r', In r' scratch /\ In r' rows2 /\ full_path r' = full_path r /\ has_dir_bit r' = true) /\
    simple_names scratch /\ simple_names U /\ unique_rows U.
  Proof.
    cbv zeta. rewrite scratch_is, table_is.
    assert (B : forall r, In r (inserted_rows [Batch rows1] ++ inserted_rows [Batch rows2]) -> backend_row r) by (rewrite inserted_both; exact all_backend).
    assert (O : one_path (inserted_rows [Batch rows1] ++ inserted_rows [Batch rows2])) by (rewrite inserted_both; apply sorted_one_path; exact all_sorted).
    split; [exact (update_complete _ _ B O rows1_later)|]. split.
    - intros r Hr. destruct (update_sound _ _ B O rows1_later r Hr) as [H|[(b & pre & n & Hb & G) (r' & H1 & H2 & H3)]]; [now left|right].
      unfold inserted_rows in Hb, H2. cbn [flat_map] in Hb, H2. rewrite app_nil_r in Hb, H2. split; [exists b, pre, n; auto|exists r'; auto].
    - split; [exact (S_simple _ _ B)|]. split; [exact (U_simple _ _ B O rows1_later)|exact (U_unique _ _ B O rows1_later)].
  Qed.

  Lemma updated_lookup sh1 sh2 now uid gid path : any_order sh1 -> any_order sh2 ->
    lookup now uid gid sh1 (update_table table [Batch rows2]) path 0 = lookup now uid gid sh2 scratch path 0.
  Proof.
    intros H1 H2. destruct updated_rows as (C & Sd & S1 & S2 & U2). symmetry. apply lookup_same; auto.
    intros r Hr. destruct (Sd r Hr) as [H|[(b & pre & n & Hb & G) (r' & Hs & Hr' & Ef & _)]]; [now left|right].
    exists r'. split; [assumption|]. split; [assumption|]. destruct G as (_ & _ & _ & _ & _ & _ & _ & _ & _ & -> & _).
    exact (sorted_app_lt _ _ _ b r' all_sorted Hb Hr').
  Qed.
End Grown.

(** ** What the checks tell about any table *)

Lemma sorted_firstn {X} (key : X -> Z) (x : X) (l : list X) n : StronglySorted (fun a b => key a <= key b) l -> In x l ->
  (length (filter (fun y => (key y <=? key x)%Z) l) <= n)%nat -> In x (firstn n l).
Proof.
  intros Hs Hx Hn. apply in_split in Hx as (a & b & ->). assert (Ha : forall y, In y a -> key y <= key x).
  { intros y Hy. exact (sorted_app_lt _ a (x :: b) y x Hs Hy (or_introl eq_refl)). }
  assert (La : filter (fun y => (key y <=? key x)%Z) a = a).
  { clear - Ha. induction a as [|y a IH]; [reflexivity|]. cbn [filter]. destruct (Z.leb_spec (key y) (key x)) as [_|L]; [|specialize (Ha y (or_introl eq_refl)); lia].
    f_equal. apply IH. intros z Hz. apply Ha. now right. }
  rewrite filter_app, La, app_length in Hn. cbn [filter] in Hn. rewrite Z.leb_refl in Hn. cbn [length] in Hn.
  rewrite firstn_app. apply in_app_iff. right. destruct (n - length a)%nat eqn:E; [lia|now left].
Qed.

Lemma filter_perm {X} (f : X -> bool) a b : Permutation a b -> length (filter f a) = length (filter f b).
Proof.
  induction 1; cbn [filter]; try congruence; repeat match goal with |- context [f ?x] => destruct (f x) end; cbn [length]; congruence.
Qed.

Lemma check_row_header transform archive r pos : r_offsetheader r = 512 * Z.of_nat pos -> check_row transform archive r = Valid -> header_at transform archive r.
Proof.
  intros Hpos Ex. unfold check_row in Ex. set (c := Z.max 1 _) in Ex. rewrite Hpos in Ex. replace (512 * Z.of_nat pos / 512) with (Z.of_nat pos) in Ex by (apply Z.div_unique_exact; lia).
  rewrite Nat2Z.id in Ex. assert (Hc : exists k, Z.to_nat c = S k) by (exists (Z.to_nat c - 1)%nat; unfold c; lia). destruct Hc as [n Hc]. rewrite Hc in Ex.
  destruct (first_header _) as [[k m]|] eqn:Ef; [|destruct (firstn _ _); discriminate].
  set (real := file_row transform [] (512 * Z.of_nat pos) 0 k m) in Ex.
  destruct ((0 <=? r_recursiondepth r) && (r_recursiondepth r <=? 1) && same_header r real) eqn:Es; [|discriminate].
  apply andb_true_iff in Es as [_ Es]. unfold same_header in Es.
  apply andb_true_iff in Es as [Es E11]. apply andb_true_iff in Es as [Es E10]. apply andb_true_iff in Es as [Es E9]. apply andb_true_iff in Es as [Es E8].
  apply andb_true_iff in Es as [Es E7]. apply andb_true_iff in Es as [Es E6]. apply andb_true_iff in Es as [Es E5]. apply andb_true_iff in Es as [Es E4].
  apply andb_true_iff in Es as [Es E3]. apply andb_true_iff in Es as [E1 E2].
  apply str_eqb_eq in E1, E8. apply Z.eqb_eq in E2, E3, E4, E5, E6, E7, E9, E10. apply Bool.eqb_prop in E11.
  pose proof (file_row_fields transform [] (512 * Z.of_nat pos) 0 k m) as (F1 & F2 & F3 & F4 & F5 & F6 & F7 & F8 & F9 & F10 & F11). fold real in F1, F2, F3, F4, F5, F6, F7, F8, F9, F10, F11.
  assert (k = 0%nat) by lia. subst k.
  assert (N : nth_error archive pos = Some (Head m)).
  { clear - Ef. revert pos Ef. induction archive as [|b archive IH]; intros [|pos] Ef; cbn [skipn] in Ef; try discriminate.
    - cbn [firstn first_header] in Ef. destruct b; [destruct (first_header _) as [[? ?]|]; discriminate|injection Ef as ->; reflexivity|destruct (first_header _) as [[? ?]|]; discriminate].
    - cbn [nth_error]. now apply IH. }
  exists pos, m, (r_path real). split; [assumption|]. split; [assumption|]. split; [rewrite E1; exact F1|]. rewrite E3, E4, E5, E8, E9, E10, E11, F4, F5, F6, F8, F9, F10, F11.
  assert (Et : r_type real = Z.of_nat (nat_of_ascii (m_type m))) by (unfold real, file_row; now destruct (split_last _)).
  rewrite E7, Et. repeat split; lia.
Qed.

Lemma check_rows_all transform archive rs : check_rows transform archive rs = Valid -> forall r, In r rs -> check_row transform archive r = Valid.
Proof.
  induction rs as [|x rs IH]; [intros _ r []|]. intros E r [<-|Hr]; cbn [check_rows] in E; destruct (check_row transform archive x) eqn:Ex; try discriminate; [reflexivity|now apply IH].
Qed.

Lemma first_checked picked limit table r : among_first limit table r -> In r (checked_rows picked limit table).
Proof.
  intros [Hr Hn]. unfold checked_rows. apply in_app_iff. left. apply (sorted_firstn r_offset).
  - apply sort_sorted.
  - apply (Permutation_in _ (Permutation_sym (sort_perm _ _))). exact Hr.
  - rewrite (filter_perm _ _ _ (sort_perm _ _)). exact Hn.
Qed.

Lemma last_checked picked limit table r : among_last limit table r -> In r (checked_rows picked limit table).
Proof.
  intros [Hr Hn]. unfold checked_rows. apply in_app_iff. right. apply in_app_iff. right. apply (sorted_firstn (fun r => - r_offset r)).
  - apply sort_sorted.
  - apply (Permutation_in _ (Permutation_sym (sort_perm _ _))). exact Hr.
  - rewrite (filter_perm _ _ _ (sort_perm _ _)). fold (regular_files table) in *. etransitivity; [|exact Hn]. apply Nat.eq_le_incl. f_equal.
    apply filter_ext. intros x. destruct (Z.leb_spec (r_offset r) (r_offset x)), (Z.leb_spec (- r_offset x) (- r_offset r)); lia || reflexivity.
Qed.

Lemma ends_at_spec archive offset : 0 <= offset -> ends_at archive offset = true <-> end_marker_at archive offset.
Proof.
  intros H. unfold ends_at, end_marker_at. assert (Hq : 0 <= offset / 512) by (apply Z.div_pos; lia).
  remember (Z.to_nat (offset / 512)) as pos eqn:Ep. assert (E : offset / 512 = Z.of_nat pos) by lia.
  assert (G : forall p, (match skipn p archive with Zero :: Zero :: _ => true | _ => false end) = true <-> nth_error archive p = Some Zero /\ nth_error archive (S p) = Some Zero).
  { clear. induction archive as [|b archive IH]; intros [|p].
    - split; [discriminate|intros [? _]; discriminate].
    - split; [discriminate|intros [? _]; discriminate].
    - cbn [skipn]. destruct b; try (split; [discriminate|intros [? _]; discriminate]). destruct archive as [|[| |] ?]; (split; [try discriminate|intros [_ ?]; try discriminate]); auto.
    - cbn [skipn]. rewrite IH. reflexivity. }
  rewrite G. split; [intros [A B]; exists pos; auto|]. intros (p & E' & A). assert (p = pos) as -> by lia. assumption.
Qed.

Lemma marked transform tie size_limit file_limit verify compressed read_only same_version named old_size old_mtime archive mtime table b :
  let stats := mkStored (Some old_size) (Some old_mtime) in
  check transform tie size_limit file_limit verify compressed read_only same_version named (Some stats) archive (bytes archive) mtime table = Ok b ->
  let mark := try_to_mark size_limit file_limit compressed read_only same_version stats (bytes archive) mtime (Z.of_nat (length table)) in
  old_size <= bytes archive /\ (b = true -> mark = Ok true) /\
  (b = false -> (old_size < bytes archive -> mark = Ok false) /\ (verify = true -> mtime = old_mtime) /\
     exists last, past_end tie table = Ok last /\ forall offset, last = Some offset -> compressed = true \/ offset = 0 \/ ends_at archive offset = true \/ mark = Ok false).
Proof.
  intros stats Ec mark. unfold check in Ec. cbn [st_size st_mtime stats] in Ec. fold stats in Ec. fold mark in Ec.
  assert (Hb : forall {X Y} (r : res X) (f : X -> res Y) y, bind r f = Ok y -> exists x, r = Ok x /\ f x = Ok y) by (intros X Y [x|e] f y E; [exists x; auto|discriminate]).
  apply Hb in Ec as (mk & Ec & Er'). assert (mk = b) as ->.
  { destruct named; [congruence|]. destruct (check_rows _ _ _); congruence. }
  apply Hb in Ec as (m1 & E1 & Ec). apply Hb in Ec as (last & Ep & Ec). apply Hb in Ec as (m2 & E2 & Ec).
  assert (m2 = b) as -> by (destruct (negb m2 && verify && negb (mtime =? old_mtime)); congruence).
  destruct (Z.ltb_spec (bytes archive) old_size); [discriminate|]. split; [assumption|].
  assert (V : b = false -> verify = true -> mtime = old_mtime).
  { intros -> ->. cbn [negb andb] in Ec. destruct (Z.eqb_spec mtime old_mtime); [assumption|discriminate]. }
  assert (M1 : old_size < bytes archive -> mark = Ok m1) by (intros L; destruct (Z.ltb_spec old_size (bytes archive)); [assumption|lia]).
  assert (M1' : m1 = true -> mark = Ok true) by (intros ->; destruct (old_size <? bytes archive); [assumption|discriminate]).
  split.
  - intros ->. destruct last as [offset|]; [|injection E2 as ->; auto]. destruct (_ || _ || _); [injection E2 as ->; auto|].
    apply Hb in E2 as (again & E2 & E3). injection E3 as E3. destruct m1; [auto|]. cbn [orb] in E3. now rewrite <- E3.
  - intros ->. split; [|split; [now apply V|]].
    + intros L. rewrite (M1 L). f_equal. destruct last as [offset|]; [|congruence]. destruct (_ || _ || _); [congruence|].
      apply Hb in E2 as (again & E2 & E3). injection E3 as E3. now apply orb_false_iff in E3.
    + exists last. split; [assumption|]. intros offset ->. destruct compressed; [now left|]. cbn [orb] in E2. destruct (Z.eqb_spec offset 0); [auto|]. cbn [orb] in E2.
      destruct (ends_at archive offset); [auto|]. apply Hb in E2 as (again & E2 & E3). injection E3 as E3. apply orb_false_iff in E3 as [_ ->]. auto.
Qed.
