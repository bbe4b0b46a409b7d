From Coq Require Import Ascii String Sorting.Sorted Sorting.Permutation.
From Verif Require Import PyBase PyDict PyStr Path_Model Path_Spec Path_Proofs FileInfo Index_Model Index_Spec.
Local Open Scope Z_scope.

(** ** Sorting *)
Section Sort.
  Context {X : Type} (key : X -> Z).
  Lemma insert_perm x l : Permutation (insert_sorted key x l) (x :: l).
  Proof.
    induction l as [|y r IH]; cbn; [reflexivity|]. destruct (key x <? key y); [reflexivity|].
    rewrite IH. apply perm_swap.
  Qed.
  Lemma insert_sorted_ok x l : StronglySorted (fun a b => key a <= key b) l ->
    StronglySorted (fun a b => key a <= key b) (insert_sorted key x l).
  Proof.
    induction l as [|y r IH]; intros H; cbn; [repeat constructor|]. inversion H as [|? ? Hr Hy]; subst.
    destruct (Z.ltb_spec (key x) (key y)).
    - constructor; [assumption|]. constructor; [lia|]. eapply Forall_impl; [|exact Hy]. cbn; intros; lia.
    - constructor; [auto|]. apply (Permutation_Forall (Permutation_sym (insert_perm x r))). constructor; [lia|assumption].
  Qed.
  Lemma sort_aux l : forall acc, StronglySorted (fun a b => key a <= key b) acc ->
    StronglySorted (fun a b => key a <= key b) (fold_left (fun acc x => insert_sorted key x acc) l acc) /\
    Permutation (fold_left (fun acc x => insert_sorted key x acc) l acc) (l ++ acc).
  Proof.
    induction l as [|x r IH]; intros acc H; cbn [fold_left app]; [auto|].
    destruct (IH _ (insert_sorted_ok x acc H)) as [H1 H2]. split; [assumption|].
    rewrite H2, insert_perm. symmetry. apply Permutation_middle.
  Qed.
  Lemma sort_sorted l : StronglySorted (fun a b => key a <= key b) (sort_by key l).
  Proof. apply sort_aux. constructor. Qed.
  Lemma sort_perm l : Permutation (sort_by key l) l.
  Proof. unfold sort_by. rewrite (proj2 (sort_aux l [] ltac:(constructor))). now rewrite app_nil_r. Qed.
End Sort.

(** A weakly sorted permutation of a strictly sorted list is that list. *)
Lemma sorted_unique {X} (key : X -> Z) l m :
  StronglySorted (fun a b => key a < key b) l -> StronglySorted (fun a b => key a <= key b) m -> Permutation m l -> m = l.
Proof.
  revert m. induction l as [|x r IH]; intros m Hl Hm Hp.
  - symmetry in Hp. now apply Permutation_nil in Hp.
  - inversion Hl as [|? ? Hr Hx]; subst. destruct m as [|y m]; [now apply Permutation_nil_cons in Hp|].
    inversion Hm as [|? ? Hmr Hy]; subst.
    assert (E : y = x).
    { assert (H1 : In y (x :: r)) by (eapply Permutation_in; [exact Hp|now left]).
      assert (H2 : In x (y :: m)) by (eapply Permutation_in; [symmetry; exact Hp|now left]).
      destruct H1 as [->|H1]; [reflexivity|]. destruct H2 as [->|H2]; [reflexivity|].
      rewrite Forall_forall in Hx, Hy. specialize (Hx _ H1). specialize (Hy _ H2). lia. }
    subst y. f_equal. apply IH; auto. eapply Permutation_cons_inv; exact Hp.
Qed.

Lemma StronglySorted_rev {X} (R : X -> X -> Prop) l : StronglySorted R l -> StronglySorted (fun a b => R b a) (rev l).
Proof.
  induction 1 as [|x r Hr IH Hx]; cbn; [constructor|].
  clear Hr. revert Hx IH. generalize (rev r) as m, (fun y => proj2 (in_rev r y)). intros m Hm Hx IH.
  assert (G : Forall (fun y => R x y) m).
  { apply Forall_forall. intros y Hy. rewrite Forall_forall in Hx. apply Hx. auto. }
  clear Hm Hx. induction m as [|y m IHm]; cbn; [repeat constructor|].
  inversion IH; subst. inversion G; subst. constructor; [auto|]. apply Forall_app. split; [assumption|]. now repeat constructor.
Qed.

Lemma StronglySorted_weaken {X} (R S : X -> X -> Prop) l : (forall a b, R a b -> S a b) -> StronglySorted R l -> StronglySorted S l.
Proof. intros H. induction 1; constructor; [assumption|]. eapply Forall_impl; [|eassumption]. auto. Qed.

(** ** Lookup and versions *)
Lemma denotes_snoc p : denotes p <> [] -> exists loc n, denotes p = loc ++ [n] /\ Forall proper_name loc /\ proper_name n.
Proof.
  intros H. destruct (exists_last H) as (loc & n & E). exists loc, n. split; [assumption|].
  pose proof (denotes_proper p) as Hp. rewrite E in Hp. apply Forall_app in Hp as [H1 H2]. inversion H2. auto.
Qed.

Lemma query_written p : starts_with $"../" p = false -> query_normpath p = written (denotes p).
Proof. intros H. rewrite query_normpath_norm by assumption. apply normpath_written. Qed.

Lemma full_path_split r a n : ~ In slash (r_name r) -> ~ In slash n ->
  (full_path r = a ++ slash :: n <-> r_path r = a /\ r_name r = n).
Proof.
  intros Hr Hn. unfold full_path. split; [|intros [-> ->]; reflexivity]. intros E.
  assert (E1 : rsplit1 slash (r_path r ++ slash :: r_name r) = Some (r_path r, r_name r)) by (apply rsplit1_Some; auto).
  rewrite E in E1. assert (E2 : rsplit1 slash (a ++ slash :: n) = Some (a, n)) by (apply rsplit1_Some; auto).
  rewrite E1 in E2. inversion E2; auto.
Qed.

Lemma written_snoc loc n : written (loc ++ [n]) = folder_of loc ++ slash :: n.
Proof.
  destruct loc as [|x r]; [reflexivity|]. unfold folder_of, written. rewrite (join_app _ (x :: r) [n]) by discriminate. reflexivity.
Qed.

Lemma filter_at_path files p loc n : simple_names files -> denotes p = loc ++ [n] -> proper_name n ->
  filter (fun r => str_eqb (r_path r) (folder_of loc) && str_eqb (r_name r) n) files = filter (at_path p) files.
Proof.
  intros Hs E Hn. apply filter_ext_in. intros r Hr. unfold at_path. rewrite E, written_snoc.
  pose proof (full_path_split r (folder_of loc) n (Hs r Hr) (proj2 (proj2 (proj2 Hn)))) as Hf.
  destruct (str_eqb_spec (full_path r) (folder_of loc ++ slash :: n)) as [Ef|Nf].
  - apply Hf in Ef as [-> ->]. now rewrite !str_eqb_refl.
  - destruct (str_eqb_spec (r_path r) (folder_of loc)) as [E1|]; [|reflexivity].
    destruct (str_eqb_spec (r_name r) n) as [E2|]; [|reflexivity]. exfalso. apply Nf, Hf. auto.
Qed.

Section Lookup.
  Variables now uid gid : Z.
  Variable shuffle : list row -> list row.
  Hypothesis Hsh : any_order shuffle.
  Variable files : list row.
  Variable p : str.
  Hypothesis Hnames : simple_names files.
  Hypothesis Hp : starts_with $"../" p = false.
  Hypothesis Hroot : denotes p <> [].
  Variable occ : list row.
  Hypothesis Hocc : occurrences files p occ.

  Lemma sorted_matching : sort_by r_offsetheader (shuffle (filter (at_path p) files)) = occ.
  Proof.
    destruct Hocc as [H1 H2]. apply (sorted_unique r_offsetheader); [assumption|apply sort_sorted|].
    rewrite sort_perm, (Hsh (filter (at_path p) files)). now symmetry.
  Qed.
  Lemma sorted_matching_desc : sort_by (fun r => - r_offsetheader r) (shuffle (filter (at_path p) files)) = rev occ.
  Proof.
    destruct Hocc as [H1 H2]. apply (sorted_unique (fun r => - r_offsetheader r)).
    - apply StronglySorted_rev in H2. eapply StronglySorted_weaken; [|exact H2]. cbn; intros; lia.
    - apply sort_sorted.
    - rewrite sort_perm, (Hsh (filter (at_path p) files)). rewrite <- Permutation_rev. now symmetry.
  Qed.

  Lemma zskip_nth {X} k (l : list X) : 0 <= k -> match zskip k l with [] => None | x :: _ => Some x end = nth_error l (Z.to_nat k).
  Proof.
    intros H. unfold zskip. generalize (Z.to_nat k) as n. clear. intros n. revert l. induction n as [|n IH]; intros [|x l]; cbn; auto.
  Qed.

  Lemma path_not_root : str_eqb (query_normpath p) $"/" = false.
  Proof.
    apply str_eqb_neq. rewrite query_written by exact Hp. intros E. apply Hroot.
    apply written_root; [apply denotes_proper|assumption].
  Qed.

  Lemma lookup_spec v : lookup now uid gid shuffle files p v =
    option_map row_to_file_info (if v <=? 0 then nth_error (rev occ) (Z.to_nat (- v)) else nth_error occ (Z.to_nat (v - 1))).
  Proof.
    unfold lookup. rewrite path_not_root. rewrite query_written by exact Hp.
    destruct (denotes_snoc p Hroot) as (loc & n & E & Hl & Hn). rewrite E, rsplit_written by assumption.
    rewrite (filter_at_path files p loc n) by assumption.
    destruct (Z.leb_spec v 0).
    - replace (0 <? v) with false by (symmetry; apply Z.ltb_ge; lia). rewrite sorted_matching_desc.
      rewrite <- zskip_nth by lia. destruct (zskip (- v) (rev occ)); reflexivity.
    - replace (0 <? v) with true by (symmetry; apply Z.ltb_lt; lia). rewrite sorted_matching.
      rewrite <- zskip_nth by lia. destruct (zskip (v - 1) occ); reflexivity.
  Qed.

  Lemma versions_spec : versions now uid gid shuffle files p = length occ.
  Proof.
    unfold versions, index_versions. rewrite path_not_root. rewrite query_written by exact Hp.
    destruct (denotes_snoc p Hroot) as (loc & n & E & Hl & Hn). rewrite E, rsplit_written by assumption.
    rewrite (filter_at_path files p loc n) by assumption. rewrite sorted_matching.
    rewrite combine_length, seq_length, map_length. lia.
  Qed.

  Lemma nth_error_rev {X} (l : list X) i : (i < length l)%nat -> nth_error (rev l) i = nth_error l (length l - S i).
  Proof.
    intros H. destruct (nth_error l (length l - S i)) as [x|] eqn:E; [|apply nth_error_None in E; lia].
    apply (nth_error_nth' _ x) in H as H'. apply nth_error_nth with (d := x) in E.
    rewrite (nth_error_nth' (rev l) x) by (rewrite rev_length; lia). rewrite rev_nth by lia. now rewrite E.
  Qed.

  Lemma version_numbers : 
    (forall k, (1 <= k <= length occ)%nat ->
       lookup now uid gid shuffle files p (Z.of_nat k) = option_map row_to_file_info (nth_error occ (k - 1)) /\
       lookup now uid gid shuffle files p (Z.of_nat k) <> None /\
       lookup now uid gid shuffle files p (Z.of_nat k) =
       lookup now uid gid shuffle files p (Z.of_nat k - Z.of_nat (length occ))) /\
    (forall j, (j < length occ)%nat ->
       lookup now uid gid shuffle files p (- Z.of_nat j) = option_map row_to_file_info (nth_error (rev occ) j) /\
       lookup now uid gid shuffle files p (- Z.of_nat j) <> None) /\
    (forall v, v <= - Z.of_nat (length occ) \/ Z.of_nat (length occ) < v -> lookup now uid gid shuffle files p v = None).
  Proof.
    split; [|split].
    - intros k Hk. rewrite !lookup_spec. destruct (Z.leb_spec (Z.of_nat k) 0); [lia|].
      replace (Z.to_nat (Z.of_nat k - 1)) with (k - 1)%nat by lia. split; [reflexivity|]. split.
      + destruct (nth_error occ (k - 1)) eqn:E; [discriminate|]. apply nth_error_None in E. lia.
      + destruct (Z.leb_spec (Z.of_nat k - Z.of_nat (length occ)) 0); [|lia].
        replace (Z.to_nat (- (Z.of_nat k - Z.of_nat (length occ)))) with (length occ - k)%nat by lia.
        rewrite nth_error_rev by lia. do 2 f_equal. lia.
    - intros j Hj. rewrite !lookup_spec. destruct (Z.leb_spec (- Z.of_nat j) 0); [|lia].
      replace (Z.to_nat (- - Z.of_nat j)) with j by lia. split; [reflexivity|].
      destruct (nth_error (rev occ) j) eqn:E; [discriminate|]. apply nth_error_None in E. rewrite rev_length in E. lia.
    - intros v Hv. rewrite lookup_spec. destruct (Z.leb_spec v 0).
      + replace (nth_error (rev occ) (Z.to_nat (- v))) with (@None row); [reflexivity|]. symmetry. apply nth_error_None. rewrite rev_length. lia.
      + replace (nth_error occ (Z.to_nat (v - 1))) with (@None row); [reflexivity|]. symmetry. apply nth_error_None. lia.
  Qed.
End Lookup.

Lemma root_versions now uid gid shuffle files p v : starts_with $"../" p = false -> denotes p = [] ->
  lookup now uid gid shuffle files p v = Some (root now uid gid) /\ versions now uid gid shuffle files p = 1%nat.
Proof.
  intros Hp E. unfold lookup, versions, index_versions. rewrite query_written by assumption. rewrite E. split; reflexivity.
Qed.

(** Every table with unique keys has its occurrences: the sorted matching rows. *)
Lemma occurrences_exist files p : unique_rows files -> occurrences files p (sort_by r_offsetheader (filter (at_path p) files)).
Proof.
  intros Hu. split; [apply sort_perm|].
  assert (Hinj : forall a b, In a files -> In b files -> True) by auto. clear Hinj.
  assert (Hnd : NoDup (map r_offsetheader (filter (at_path p) files))).
  { assert (G : forall l, (forall i j a b, nth_error l i = Some a -> nth_error l j = Some b -> full_path a = full_path b ->
                 r_offsetheader a = r_offsetheader b -> i = j) -> NoDup (map r_offsetheader (filter (at_path p) l))).
    { induction l as [|x l IH]; intros H; cbn [filter map]; [constructor|].
      assert (Hl : NoDup (map r_offsetheader (filter (at_path p) l))).
      { apply IH. intros i j a b Ha Hb E1 E2. assert (S i = S j) by (apply (H (S i) (S j) a b); assumption). lia. }
      destruct (at_path p x) eqn:Ex; [|exact Hl]. cbn [map]. constructor; [|exact Hl].
      intros Hin. apply in_map_iff in Hin as (y & Ey & Hy). apply filter_In in Hy as [Hy Hpy].
      apply In_nth_error in Hy as [i Hi].
      assert (O = S i); [|lia]. apply (H O (S i) x y); [reflexivity|exact Hi| |now symmetry].
      unfold at_path in Ex, Hpy. apply str_eqb_eq in Ex, Hpy. congruence. }
    apply G. exact Hu. }
  pose proof (sort_sorted r_offsetheader (filter (at_path p) files)) as Hs.
  apply (Permutation_NoDup (Permutation_map r_offsetheader (Permutation_sym (sort_perm r_offsetheader (filter (at_path p) files))))) in Hnd.
  revert Hs Hnd. generalize (sort_by r_offsetheader (filter (at_path p) files)) as l. clear. induction l as [|x l IH]; intros Hs Hnd; [constructor|].
  inversion Hs; subst. inversion Hnd as [|? ? Hx Hl]; subst. constructor; [auto|].
  apply Forall_forall. intros y Hy. rewrite Forall_forall in H2. specialize (H2 _ Hy).
  assert (r_offsetheader x <> r_offsetheader y); [|lia]. intros E. apply Hx. rewrite E. now apply in_map.
Qed.

(** ** Listing *)
Lemma perm_filter {X} (f : X -> bool) l m : Permutation l m -> Permutation (filter f l) (filter f m).
Proof.
  induction 1; cbn; [constructor| | |].
  - destruct (f x); [now constructor|assumption].
  - destruct (f x), (f y); try reflexivity. constructor.
  - etransitivity; eassumption.
Qed.

Lemma sorted_filter {X} (R : X -> X -> Prop) (f : X -> bool) l : StronglySorted R l -> StronglySorted R (filter f l).
Proof.
  induction 1; cbn; [constructor|]. destruct (f a); [|assumption]. constructor; [assumption|].
  apply Forall_forall. intros x Hx. apply filter_In in Hx as [Hx _]. rewrite Forall_forall in H0. auto.
Qed.

Lemma filter_filter {X} (f g : X -> bool) l : filter f (filter g l) = filter (fun x => g x && f x) l.
Proof. induction l as [|x l IH]; cbn; [reflexivity|]. destruct (g x); cbn; [destruct (f x); now rewrite IH|exact IH]. Qed.

Definition last_opt {X} (l : list X) : option X := nth_error (rev l) 0.

Lemma dget_dict_of_last {X V} (f : X -> str) (g : X -> V) l k :
  dget str_eqb (dict_of str_eqb (map (fun r => (f r, g r)) l)) k =
  option_map g (last_opt (filter (fun r => str_eqb (f r) k) l)).
Proof.
  induction l as [|x l IH] using rev_ind; [reflexivity|].
  rewrite map_app. cbn [map]. rewrite (dget_dict_of_snoc str_eqb str_eqb_spec). rewrite filter_app. cbn [filter].
  destruct (str_eqb_spec k (f x)) as [->|N].
  - rewrite str_eqb_refl. unfold last_opt. rewrite rev_app_distr. reflexivity.
  - destruct (str_eqb_spec (f x) k); [congruence|]. rewrite app_nil_r. exact IH.
Qed.

Lemma dict_of_keys {X V} (f : X -> str) (g : X -> V) l k :
  In k (dkeys (dict_of str_eqb (map (fun r => (f r, g r)) l))) <-> exists r, In r l /\ f r = k.
Proof.
  unfold dict_of. rewrite (In_dkeys_dupdate str_eqb str_eqb_spec). cbn [dkeys map In]. unfold dkeys. rewrite map_map. cbn [fst].
  rewrite in_map_iff. split; [intros [[]|(r & E & Hr)]; eauto|intros (r & Hr & E); right; eauto].
Qed.

Lemma dict_of_nil {X V} (f : X -> str) (g : X -> V) l : dict_of str_eqb (map (fun r => (f r, g r)) l) = [] <-> l = [].
Proof.
  split; [|intros ->; reflexivity]. intros E. destruct l as [|x l]; [reflexivity|].
  assert (H : In (f x) (dkeys (dict_of str_eqb (map (fun r => (f r, g r)) (x :: l))))) by (apply dict_of_keys; exists x; split; [now left|reflexivity]).
  rewrite E in H. destruct H.
Qed.

Definition in_folder (p : str) (r : row) : bool := str_eqb (r_path r) (folder_of (denotes p)).

Section Listing.
  Context {V : Type} (g : row -> V).
  Variable shuffle : list row -> list row.
  Hypothesis Hsh : any_order shuffle.
  Variable files : list row.
  Variable p : str.
  Hypothesis Hp : starts_with $"../" p = false.

  Lemma folder_path : rstrip slash (query_normpath p) = folder_of (denotes p).
  Proof. rewrite query_written by exact Hp. apply rstrip_written, denotes_proper. Qed.

  Definition listing_rows : list row :=
    sort_by r_offsetheader (shuffle (filter (fun r => str_eqb (r_path r) (rstrip slash (query_normpath p))) files)).

  Lemma listing_perm : Permutation listing_rows (filter (in_folder p) files).
  Proof.
    unfold listing_rows. rewrite sort_perm, (Hsh _). rewrite folder_path. reflexivity.
  Qed.

  Definition listing : option (list (str * V)) :=
    let directory := dict_of str_eqb (map (fun r => (r_name r, g r)) listing_rows) in
    let gotResults := match directory with [] => false | _ => true end in
    let directory := ddel str_eqb directory [] in
    if gotResults then Some directory else None.

  Lemma listing_None : listing = None <-> filter (in_folder p) files = [].
  Proof.
    unfold listing. pose proof (dict_of_nil r_name g listing_rows) as Hn.
    assert (E : listing_rows = [] <-> filter (in_folder p) files = []).
    { split; intros E; pose proof listing_perm as HP; rewrite E in HP; [now apply Permutation_nil in HP|].
      symmetry in HP; now apply Permutation_nil in HP. }
    destruct (dict_of str_eqb (map (fun r => (r_name r, g r)) listing_rows)); [tauto|].
    split; [discriminate|]. intros H. exfalso. apply E in H. apply Hn in H. discriminate.
  Qed.

  Lemma listing_get d n : listing = Some d -> n <> [] ->
    dget str_eqb d n = option_map g (last_opt (filter (fun r => str_eqb (r_name r) n) listing_rows)).
  Proof.
    unfold listing. intros E Hn.
    assert (E2 : d = ddel str_eqb (dict_of str_eqb (map (fun r => (r_name r, g r)) listing_rows)) []).
    { destruct (dict_of str_eqb (map (fun r => (r_name r, g r)) listing_rows)); congruence. }
    rewrite E2. rewrite (dget_ddel str_eqb str_eqb_spec) by (apply (NoDup_dupdate str_eqb str_eqb_spec); constructor).
    destruct (str_eqb_spec n []); [congruence|]. apply dget_dict_of_last.
  Qed.

  Lemma listing_keys d : listing = Some d -> NoDup (dkeys d) /\
    forall n, In n (dkeys d) <-> n <> [] /\ exists r, In r files /\ in_folder p r = true /\ r_name r = n.
  Proof.
    unfold listing. intros E.
    assert (E2 : d = ddel str_eqb (dict_of str_eqb (map (fun r => (r_name r, g r)) listing_rows)) []).
    { destruct (dict_of str_eqb (map (fun r => (r_name r, g r)) listing_rows)); congruence. }
    set (d0 := dict_of str_eqb (map (fun r => (r_name r, g r)) listing_rows)) in *.
    assert (Hnd : NoDup (dkeys d0)) by (apply (NoDup_dupdate str_eqb str_eqb_spec); constructor).
    split; [rewrite E2; apply (NoDup_ddel str_eqb str_eqb_spec), Hnd|].
    intros n. rewrite <- (dget_In_keys str_eqb str_eqb_spec). rewrite E2, (dget_ddel str_eqb str_eqb_spec) by exact Hnd.
    destruct (str_eqb_spec n []) as [->|N]; [split; [intros [v H]; discriminate|tauto]|].
    rewrite (dget_In_keys str_eqb str_eqb_spec). unfold d0. rewrite dict_of_keys. split.
    - intros (r & Hr & <-). split; [assumption|]. exists r. apply (Permutation_in _ listing_perm) in Hr.
      apply filter_In in Hr. tauto.
    - intros (_ & r & Hr & Hf & <-). exists r. split; [|reflexivity]. apply (Permutation_in _ (Permutation_sym listing_perm)).
      apply filter_In; auto.
  Qed.

  Lemma listing_filter_occ n occ : simple_names files -> proper_name n -> occurrences files (p ++ slash :: n) occ ->
    filter (fun r => str_eqb (r_name r) n) listing_rows = occ.
  Proof.
    intros Hs Hn [H1 H2]. apply (sorted_unique r_offsetheader); [assumption|apply sorted_filter, sort_sorted|].
    rewrite (perm_filter _ _ _ listing_perm). rewrite filter_filter. rewrite H1.
    unfold in_folder. rewrite (filter_at_path files (p ++ slash :: n) (denotes p) n); [reflexivity|assumption| |assumption].
    now apply denotes_child.
  Qed.
End Listing.

Lemma starts_slash p q : starts_with $"/" p = true -> starts_with $"../" (p ++ q) = false.
Proof. intros H. apply starts_with_spec in H as [t ->]. reflexivity. Qed.

Lemma list_agrees now uid gid sh1 sh2 sh3 files p :
  any_order sh1 -> any_order sh2 -> any_order sh3 ->
  simple_names files -> unique_rows files -> starts_with $"/" p = true ->
  (* names and metadata *)
  (forall n, proper_name n ->
     lookup now uid gid sh2 files (p ++ slash :: n) 0 =
     match index_list sh1 files p with Some d => dget str_eqb d n | None => None end) /\
  (forall n, proper_name n ->
     option_map fi_mode (lookup now uid gid sh2 files (p ++ slash :: n) 0) =
     match list_mode sh3 files p with Some d => dget str_eqb d n | None => None end) /\
  (forall d, index_list sh1 files p = Some d -> NoDup (dkeys d) /\ ~ In [] (dkeys d)) /\
  match index_list sh1 files p, list_mode sh3 files p with
  | Some d, Some m => forall n, In n (dkeys d) <-> In n (dkeys m)
  | None, None => True
  | _, _ => False
  end.
Proof.
  intros H1 H2 H3 Hs Hu Hp.
  assert (Hp' : starts_with $"../" p = false) by (rewrite <- (app_nil_r p); now apply starts_slash).
  change (index_list sh1 files p) with (listing row_to_file_info sh1 files p).
  change (list_mode sh3 files p) with (listing r_mode sh3 files p).
  assert (Hl : forall n, proper_name n -> lookup now uid gid sh2 files (p ++ slash :: n) 0 =
            option_map row_to_file_info (last_opt (sort_by r_offsetheader (filter (at_path (p ++ slash :: n)) files)))).
  { intros n Hn. rewrite (lookup_spec now uid gid sh2 H2 files (p ++ slash :: n) Hs (starts_slash p _ Hp)
                   ltac:(rewrite denotes_child by assumption; destruct (denotes p); discriminate) _ (occurrences_exist _ _ Hu)).
    reflexivity. }
  assert (Hempty : forall n, proper_name n -> filter (in_folder p) files = [] -> lookup now uid gid sh2 files (p ++ slash :: n) 0 = None).
  { intros n Hn E. rewrite Hl by assumption.
    rewrite <- (filter_at_path files _ (denotes p) n Hs (denotes_child p n Hn) Hn).
    replace (filter _ files) with (@nil row); [reflexivity|]. symmetry.
    rewrite <- (filter_filter (fun r => str_eqb (r_name r) n) (in_folder p)). now rewrite E. }
  split; [|split; [|split]].
  - intros n Hn. destruct (listing row_to_file_info sh1 files p) as [d|] eqn:E.
    + rewrite (listing_get row_to_file_info sh1 files p d n E) by apply Hn.
      rewrite (listing_filter_occ sh1 H1 files p Hp' n _ Hs Hn (occurrences_exist _ _ Hu)). now apply Hl.
    + apply listing_None in E; auto.
  - intros n Hn. destruct (listing r_mode sh3 files p) as [d|] eqn:E.
    + rewrite (listing_get r_mode sh3 files p d n E) by apply Hn.
      rewrite (listing_filter_occ sh3 H3 files p Hp' n _ Hs Hn (occurrences_exist _ _ Hu)). rewrite Hl by assumption.
      destruct (last_opt _); reflexivity.
    + apply listing_None in E; auto. rewrite Hempty; auto.
  - intros d E. destruct (listing_keys row_to_file_info sh1 H1 files p Hp' d E) as [Hnd Hk]. split; [assumption|].
    rewrite Hk. tauto.
  - pose proof (listing_None row_to_file_info sh1 H1 files p Hp') as N1.
    pose proof (listing_None r_mode sh3 H3 files p Hp') as N3.
    destruct (listing row_to_file_info sh1 files p) as [d|] eqn:E1; destruct (listing r_mode sh3 files p) as [m|] eqn:E3; auto.
    + intros n. destruct (listing_keys row_to_file_info sh1 H1 files p Hp' d E1) as [_ ->].
      destruct (listing_keys r_mode sh3 H3 files p Hp' m E3) as [_ ->]. tauto.
    + destruct N3 as [N3 _]. specialize (N3 eq_refl). apply N1 in N3. discriminate.
    + destruct N1 as [N1 _]. specialize (N1 eq_refl). apply N3 in N1. discriminate.
Qed.
