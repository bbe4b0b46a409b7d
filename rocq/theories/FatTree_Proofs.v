From Verif Require Import PyBase FileInfo Fat_Model Fat_Spec FatDir_Model FatDir_Spec Fat_Proofs FatDir_Proofs FatTree_Model FatTree_Spec.
Local Open Scope Z_scope.

(** ** Paths *)
Lemma psplit_cons p : exists s ss, psplit p = s :: ss.
Proof. destruct p as [|c r]; [now exists [], []|]. cbn. destruct (c =? 47); [now eexists _, _|]. destruct (psplit r); now eexists _, _. Qed.
Lemma psplit_name name p : ~ In 47 name -> psplit (name ++ 47 :: p) = name :: psplit p.
Proof.
  induction name as [|c name IH]; intros N; [reflexivity|]. cbn [app psplit]. destruct (Z.eqb_spec c 47) as [->|X]; [exfalso; apply N; now left|]. rewrite IH; [reflexivity|]. intros I. apply N. now right.
Qed.
Lemma psplit_last name : ~ In 47 name -> psplit name = [name].
Proof.
  induction name as [|c name IH]; intros N; [reflexivity|]. cbn [app psplit]. destruct (Z.eqb_spec c 47) as [->|X]; [exfalso; apply N; now left|]. rewrite IH; [reflexivity|]. intros I. apply N. now right.
Qed.
Lemma split_names p l : path_names p l -> filter nonempty (psplit p) = l.
Proof.
  induction 1 as [|p l H IH|name p l N S H IH|name N S]; [reflexivity|exact IH| |].
  - rewrite psplit_name by exact S. cbn [filter]. destruct name as [|c name]; [congruence|]. cbn [nonempty]. f_equal. exact IH.
  - rewrite psplit_last by exact S. destruct name; [congruence|reflexivity].
Qed.
Lemma names_ok p l : path_names p l -> Forall (fun n => n <> [] /\ ~ In 47 n) l.
Proof. induction 1; repeat constructor; auto. Qed.
Lemma name_eqb_spec a b : reflect (a = b) (name_eqb a b).
Proof. unfold name_eqb. destruct (list_eq_dec Z.eq_dec a b); now constructor. Qed.

Lemma norm_fold k : forall l acc, Forall (fun n => n <> dot /\ n <> dotdot) (filter nonempty l) -> fold_left (norm_step k) l acc = acc ++ filter nonempty l.
Proof.
  induction l as [|c l IH]; intros acc F; [cbn; now rewrite app_nil_r|]. cbn [fold_left filter] in *. destruct c as [|x c].
  - cbn [nonempty] in *. rewrite IH by exact F. reflexivity.
  - cbn [nonempty] in *. apply Forall_cons_iff in F as ((N1 & N2) & F). unfold norm_step at 2. cbn [nonempty negb orb]. destruct (name_eqb_spec (x :: c) dot); [contradiction|]. destruct (name_eqb_spec (x :: c) dotdot); [contradiction|].
    cbn [negb orb]. rewrite IH by exact F. now rewrite <- app_assoc.
Qed.
Lemma split_slashes k p : filter nonempty (psplit (repeat 47 k ++ p)) = filter nonempty (psplit p).
Proof. induction k as [|k IH]; [reflexivity|]. cbn. exact IH. Qed.
Lemma split_join l : Forall (fun n => n <> [] /\ ~ In 47 n) l -> filter nonempty (psplit (pjoin l)) = l.
Proof.
  induction l as [|n l IH]; intros F; [reflexivity|]. apply Forall_cons_iff in F as ((N & S) & F). destruct l as [|m l].
  - cbn [pjoin]. rewrite psplit_last by exact S. destruct n; [congruence|reflexivity].
  - change (pjoin (n :: m :: l)) with (n ++ 47 :: pjoin (m :: l)). rewrite psplit_name by exact S. cbn [filter]. destruct n; [congruence|]. cbn [nonempty]. f_equal. now apply IH.
Qed.
Lemma norm_names p l : path_names p l -> p <> [] -> Forall (fun n => n <> dot /\ n <> dotdot) l -> filter nonempty (psplit (pnorm p)) = l.
Proof.
  intros H N D. pose proof (split_names p l H) as Sp. pose proof (names_ok p l H) as Ok. unfold pnorm. destruct p as [|c p]; [congruence|].
  match goal with |- context [repeat 47 ?k] => set (s := k) end. rewrite <- Sp in D. rewrite (norm_fold s _ [] D). cbn [app]. rewrite Sp.
  assert (E : repeat 47 s ++ pjoin l <> []).
  { destruct l as [|n l].
    - assert (C : c = 47) by (clear - H; inversion H; try reflexivity; destruct name; congruence). clear - C. subst c. unfold s. clear s. intros E. apply app_eq_nil in E as (E & _). revert E.
      repeat match goal with |- context [match ?x with _ => _ end] => destruct x end; discriminate.
    - apply Forall_inv in Ok as (N1 & _). intros E. apply app_eq_nil in E as (_ & E). destruct n as [|x n]; [congruence|]. destruct l; discriminate. }
  destruct (repeat 47 s ++ pjoin l) as [|y r] eqn:Er; [congruence|]. rewrite <- Er. rewrite split_slashes. now apply split_join.
Qed.

(** ** Entries *)
Definition D (e : entry) : dentry := entry_dentry e (lfn_of e).
Lemma dir_bit a : 0 <= a < 256 -> (0 <? Z.land 16 a) = (a / 16 mod 2 =? 1).
Proof. intros H. apply Bool.eqb_prop. exact (below_all (fun a => Bool.eqb (0 <? Z.land 16 a) (a / 16 mod 2 =? 1)) 256 eq_refl a ltac:(change (Z.of_nat 256) with 256; lia)). Qed.
Lemma vol_bit a : 0 <= a < 256 -> (0 <? Z.land 8 a) = (a / 8 mod 2 =? 1).
Proof. intros H. apply Bool.eqb_prop. exact (below_all (fun a => Bool.eqb (0 <? Z.land 8 a) (a / 8 mod 2 =? 1)) 256 eq_refl a ltac:(change (Z.of_nat 256) with 256; lia)). Qed.

Section Tree.
  Variable oem : Z -> Z.
  Variable is_space : Z -> bool.
  Hypothesis Blank : is_space (oem 32) = true.
  Local Notation called := (called oem).
  Local Notation visible := (visible oem).
  Local Notation short := (short_name oem is_space).

  Lemma folder_bit e : valid_entry e -> is_directory (D e) = true <-> is_folder e.
  Proof.
    intros V. destruct V as (_ & _ & _ & _ & _ & _ & A & _). unfold is_directory, is_folder, has_bit. cbn [D entry_dentry d_attr]. rewrite dir_bit by exact A. apply Z.eqb_eq.
  Qed.
  Lemma visible_bit e : valid_entry e -> no_blank_end oem is_space e -> negb (is_special oem is_space (D e) || is_volume_id (D e)) = true <-> visible e.
  Proof.
    intros V B. pose proof (short_name_of oem is_space Blank e (lfn_of e) V B) as S. destruct V as (_ & _ & _ & _ & _ & _ & A & _). unfold is_special, is_volume_id, visible, has_bit. fold (D e) in S. rewrite S.
    cbn [D entry_dentry d_attr]. rewrite vol_bit by exact A. rewrite negb_true_iff, !orb_false_iff, Z.eqb_neq. unfold FatTree_Spec.visible, has_bit.
    destruct (name_eqb_spec (seen_short oem e) dot) as [X|X], (name_eqb_spec (seen_short oem e) dotdot) as [Y|Y]; unfold dot, dotdot in *; intuition (congruence || discriminate).
  Qed.
  (** the long name *)
  Lemma long_cases e : valid_entry e -> e_parts e = [] /\ long_name (D e) = None \/ exists n, in_parts n (e_parts e) /\ long_name (D e) = Some (Ok n).
  Proof.
    intros V. destruct (entry_shows oem is_space e Blank V) as (_ & Nn & Ln & _). pose proof V as (_ & _ & _ & _ & _ & _ & _ & _ & _ & _ & _ & _ & _ & _ & [P|(n & P)]).
    - left. split; [exact P|now apply Nn].
    - right. exists n. split; [exact P|now apply Ln].
  Qed.
  Definition matches (d : dentry) (name : list Z) : Prop := long_name d = Some (Ok name) \/ short d = name.
  Lemma matches_called e name : valid_entry e -> no_blank_end oem is_space e -> matches (D e) name <-> called e name.
  Proof.
    intros V B. pose proof (short_name_of oem is_space Blank e (lfn_of e) V B) as S. fold (D e) in S. unfold matches, FatTree_Spec.called. rewrite S. destruct (entry_shows oem is_space e Blank V) as (_ & _ & Ln & _).
    split; [intros [H|H]|intros [H|H]].
    - left. destruct (long_cases e V) as [(_ & X)|(n & P & X)]; rewrite X in H; [discriminate|]. injection H as <-. exact P.
    - right. now symmetry.
    - left. now apply Ln.
    - right. now symmetry.
  Qed.
  Definition readable (d : dentry) : Prop := long_name d = None \/ exists n, long_name d = Some (Ok n).
  Lemma search_cases name : forall ds, Forall readable ds ->
    (exists d, In d ds /\ matches d name /\ search oem is_space name ds = Ok d) \/ (forall d, In d ds -> ~ matches d name) /\ search oem is_space name ds = Err (OSErr 2).
  Proof.
    induction ds as [|d ds IH]; intros F; [right; split; [intros d []|reflexivity]|]. apply Forall_cons_iff in F as (R & F). cbn [search].
    assert (Rest : ~ matches d name -> (exists d0, In d0 (d :: ds) /\ matches d0 name /\ search oem is_space name ds = Ok d0) \/ (forall d0, In d0 (d :: ds) -> ~ matches d0 name) /\ search oem is_space name ds = Err (OSErr 2)).
    { intros N. destruct (IH F) as [(d0 & I & M & E)|(A & E)]; [left; exists d0; split; [now right|now split]|right; split; [intros d0 [<-|I]; auto|exact E]]. }
    unfold matches in *. destruct R as [R|(n & R)]; rewrite R in *.
    - destruct (name_eqb_spec (short d) name) as [X|X]; [left; exists d; split; [now left|]; split; [now right|reflexivity]|]. apply Rest. intros [H|H]; [discriminate|contradiction].
    - destruct (name_eqb_spec n name) as [->|X]; [left; exists d; split; [now left|]; split; [left; exact R|reflexivity]|].
      destruct (name_eqb_spec (short d) name) as [Y|Y]; [left; exists d; split; [now left|]; split; [now right|reflexivity]|]. apply Rest. intros [H|H]; [congruence|contradiction].
  Qed.

  (** *** A directory *)
  Variable image : list Z.
  Variable v : volume.
  Variable table : list Z.
  Notation raw fuel := (entries_raw image v table fuel).

  Lemma valid_present items : Forall valid_item items -> Forall valid_entry (present items).
  Proof. unfold present. induction 1 as [|i items V F IH]; [constructor|]. cbn [map concat]. destruct i; [exact IH|]. cbn [app]. now constructor. Qed.
  Definition vis (e : entry) : bool := negb (is_special oem is_space (D e) || is_volume_id (D e)).
  Definition shown_dirs items := filter (fun e => is_directory (D e)) (filter vis (present items)).
  Definition shown_files items := filter (fun e => negb (is_directory (D e))) (filter vis (present items)).
  Lemma filter_D (f : dentry -> bool) l : filter f (map D l) = map D (filter (fun e => f (D e)) l).
  Proof. induction l as [|e l IH]; [reflexivity|]. cbn. destruct (f (D e)); [cbn; f_equal; exact IH|exact IH]. Qed.
  Lemma get_entries_of fuel n items : raw fuel n = Ok (map D (present items)) ->
    get_entries oem is_space image v table fuel n = Ok (map D (shown_dirs items), map D (shown_files items)).
  Proof. intros E. unfold get_entries. rewrite E. rewrite !filter_D. reflexivity. Qed.
  Lemma shown_in items e : good_items oem is_space items -> In e (shown_dirs items ++ shown_files items) <-> In e (present items) /\ visible e.
  Proof.
    intros (V & B & _). apply valid_present in V. unfold shown_dirs, shown_files. rewrite in_app_iff, !filter_In. rewrite Forall_forall in V, B.
    assert (X : In e (present items) -> vis e = true <-> visible e) by (intros I; apply visible_bit; auto). destruct (is_directory (D e)); cbn [negb]; intuition.
  Qed.
  Lemma search_in fuel n items name : good_items oem is_space items -> raw fuel n = Ok (map D (present items)) ->
    (exists e, In e (present items) /\ visible e /\ called e name /\ search_entry oem is_space image v table fuel n name = Ok (D e)) \/
    (forall e, In e (present items) -> visible e -> ~ called e name) /\ search_entry oem is_space image v table fuel n name = Err (OSErr 2).
  Proof.
    intros G E. unfold search_entry. rewrite (get_entries_of _ _ _ E). rewrite <- map_app. pose proof G as (V & B & _). apply valid_present in V. rewrite Forall_forall in V, B.
    destruct (search_cases name (map D (shown_dirs items ++ shown_files items))) as [(d & I & M & S)|(A & S)].
    - apply Forall_forall. intros d I. apply in_map_iff in I as (e & <- & I). apply shown_in in I as (I & _); [|exact G]. destruct (long_cases e (V e I)) as [(_ & X)|(m & _ & X)]; [now left|right; now exists m].
    - left. apply in_map_iff in I as (e & <- & I). apply shown_in in I as (I & Vi); [|exact G]. exists e. split; [exact I|]. split; [exact Vi|]. split; [apply matches_called; auto|exact S].
    - right. split; [|exact S]. intros e I Vi C. apply (A (D e)); [apply in_map, shown_in; auto|]. apply matches_called; auto.
  Qed.
  Lemma two_places {X} (e e' : X) l : In e l -> In e' l -> e = e' \/ (exists a b c, l = a ++ e :: b ++ e' :: c) \/ (exists a b c, l = a ++ e' :: b ++ e :: c).
  Proof.
    intros I I'. apply in_split in I as (a & c & ->). apply in_app_or in I' as [I'|[->|I']]; [|now left|].
    - right; right. apply in_split in I' as (a1 & a2 & ->). exists a1, a2, c. rewrite <- app_assoc. reflexivity.
    - right; left. apply in_split in I' as (a1 & a2 & ->). now exists a, a1, a2.
  Qed.
  Lemma search_found fuel n items e name : good_items oem is_space items -> raw fuel n = Ok (map D (present items)) -> In e (present items) -> visible e -> called e name ->
    search_entry oem is_space image v table fuel n name = Ok (D e).
  Proof.
    intros G E I Vi C. destruct (search_in fuel n items name G E) as [(e' & I' & Vi' & C' & S)|(A & _)]; [|exfalso; now apply (A e)].
    rewrite S. destruct G as (_ & _ & U). destruct (two_places e e' _ I I') as [->|[(x & y & z & X)|(x & y & z & X)]]; [reflexivity| |]; exfalso.
    - now apply (U x e y e' z name X).
    - now apply (U x e' y e z name X).
  Qed.

  (** *** Paths *)
  Lemma walk_app fuel : forall a c n, walk oem is_space image v table fuel n (a ++ c) = match walk oem is_space image v table fuel n a with Ok m => walk oem is_space image v table fuel m c | Err e => Err e end.
  Proof.
    induction a as [|x a IH]; intros c n; [reflexivity|]. cbn [app walk]. destruct (node_is_directory n); [|reflexivity]. destruct (search_entry _ _ _ _ _ _ n x); [apply IH|reflexivity].
  Qed.
  Variable b : boot.
  Hypothesis Rootdir : forall items, holds_root image b items -> Forall valid_item items -> exists k, forall fuel, (k <= fuel)%nat -> root_entries image v table fuel = Ok (map D (present items)).
  Hypothesis Dirs : forall first items, holds_dir image b first items -> Forall valid_item items ->
    exists k, forall fuel, (k <= fuel)%nat -> parse_in_chain image v table fuel (Some first) [] [] = Ok (map D (present items)).
  Notation walk fuel := (walk oem is_space image v table fuel).

  Lemma cluster_D e : valid_entry e -> get_cluster (D e) = e_cluster e.
  Proof. intros V. now destruct (entry_shows oem is_space e Blank V) as (_ & _ & _ & _ & C & _). Qed.
  Lemma folder_walk names items : folder_at oem is_space image b names items -> good_items oem is_space items /\
    exists k n, node_is_directory n = true /\ forall fuel, (k <= fuel)%nat -> walk fuel Root names = Ok n /\ raw fuel n = Ok (map D (present items)).
  Proof.
    induction 1 as [items H G|names items e name items' F IH I Vi Fo C H G].
    - split; [exact G|]. destruct (Rootdir items H (proj1 G)) as (k & P). exists k, Root. split; [reflexivity|]. intros fuel Le. split; [reflexivity|now apply P].
    - split; [exact G|]. destruct IH as (G0 & k & n & Dn & W). destruct (Dirs (e_cluster e) items' H (proj1 G)) as (k' & P).
      assert (V : valid_entry e) by (destruct G0 as (V & _); apply valid_present in V; rewrite Forall_forall in V; auto).
      exists (Nat.max k k'), (Entry (D e)). split; [now apply folder_bit|]. intros fuel Le. destruct (W fuel ltac:(lia)) as (W1 & W2). rewrite walk_app, W1. cbn [FatTree_Model.walk]. rewrite Dn.
      rewrite (search_found fuel n items e name) by assumption. split; [reflexivity|]. unfold entries_raw. assert (X : node_is_directory (Entry (D e)) = true) by now apply folder_bit. rewrite X, cluster_D by exact V. apply P. lia.
  Qed.
  Lemma entry_walk names e : entry_at oem is_space image b names e -> valid_entry e /\ no_blank_end oem is_space e /\ visible e /\ exists k, forall fuel, (k <= fuel)%nat -> walk fuel Root names = Ok (Entry (D e)).
  Proof.
    intros (parents & name & items & -> & F & I & Vi & C). destruct (folder_walk _ _ F) as (G & k & n & Dn & W).
    pose proof G as (V & B & _). apply valid_present in V. rewrite Forall_forall in V, B. split; [auto|]. split; [auto|]. split; [auto|].
    exists k. intros fuel Le. destruct (W fuel Le) as (W1 & W2). rewrite walk_app, W1. cbn [FatTree_Model.walk]. rewrite Dn. now rewrite (search_found fuel n items e name).
  Qed.
  (** every path leads to the root, to an entry or nowhere *)
  Lemma walk_cases : sound_tree oem is_space image b -> forall names, names = [] \/ (exists e, entry_at oem is_space image b names e) \/
    exists k x, (x = 2 \/ x = 20)%nat /\ forall fuel, (k <= fuel)%nat -> walk fuel Root names = Err (OSErr x).
  Proof.
    intros (R & S) names. induction names as [|name names IH] using rev_ind; [now left|]. right.
    assert (In_folder : forall items, folder_at oem is_space image b names items ->
      (exists e, entry_at oem is_space image b (names ++ [name]) e) \/ exists k x, (x = 2 \/ x = 20)%nat /\ forall fuel, (k <= fuel)%nat -> walk fuel Root (names ++ [name]) = Err (OSErr x)).
    { intros items F. destruct (folder_walk _ _ F) as (G & k & n & Dn & W). destruct (W k (le_n k)) as (_ & W2). destruct (search_in k n items name G W2) as [(e & I & Vi & C & _)|(A & _)].
      - left. exists e. exists names, name, items. auto.
      - right. exists k, 2%nat. split; [now left|]. intros fuel Le. destruct (W fuel Le) as (W3 & W4). rewrite walk_app, W3. cbn [FatTree_Model.walk]. rewrite Dn.
        destruct (search_in fuel n items name G W4) as [(e & I & Vi & C & _)|(_ & E)]; [exfalso; now apply (A e)|now rewrite E]. }
    destruct IH as [->|[(e & E)|(k & x & X & W)]].
    - destruct R as (items & R). now apply (In_folder items).
    - destruct (entry_walk names e E) as (V & B & Vi & k & W). destruct (is_directory (D e)) eqn:De.
      + apply folder_bit in De; [|exact V]. destruct E as (parents & n & items & -> & F & I & Vi' & C). destruct (S parents items e F I Vi De) as (items' & H & G). apply (In_folder items'). now apply (folder_below _ _ _ _ parents items e n).
      + right. exists k, 20%nat. split; [now right|]. intros fuel Le. rewrite walk_app, (W fuel Le). cbn [FatTree_Model.walk node_is_directory]. now rewrite De.
    - right. exists k, x. split; [exact X|]. intros fuel Le. rewrite walk_app. now rewrite (W fuel Le).
  Qed.

  (** *** Listing *)
  Lemma shown_of e : valid_entry e -> no_blank_end oem is_space e -> exists n, shown_as oem e n /\ shown_name oem is_space (D e) = Ok n.
  Proof.
    intros V B. pose proof (short_name_of oem is_space Blank e (lfn_of e) V B) as S. fold (D e) in S. unfold shown_name, shown_as. destruct (long_cases e V) as [(P & ->)|(n & P & ->)].
    - exists (seen_short oem e). split; [right; now split|]. now rewrite S.
    - exists n. split; [now left|reflexivity].
  Qed.
  Lemma shown_list : forall l, Forall valid_entry l -> Forall (no_blank_end oem is_space) l -> exists ns, Forall2 (shown_as oem) l ns /\ shown_names oem is_space (map D l) = Ok ns.
  Proof.
    induction l as [|e l IH]; intros V B; [exists []; now split|]. apply Forall_cons_iff in V as (V0 & V). apply Forall_cons_iff in B as (B0 & B). destruct (IH V B) as (ns & F & E). destruct (shown_of e V0 B0) as (n & S & X).
    exists (n :: ns). split; [now constructor|]. cbn [map shown_names]. now rewrite X, E.
  Qed.
End Tree.

(** *** Names of a directory are distinct *)
From Coq Require Import Permutation.
Section Distinct.
  Variable oem : Z -> Z.
  Variable is_space : Z -> bool.
  Hypothesis Blank : is_space (oem 32) = true.
  Definition nm (e : entry) : list Z := match shown_name oem is_space (D e) with Ok n => n | Err _ => [] end.
  Lemma shown_nm : forall l ns, shown_names oem is_space (map D l) = Ok ns -> ns = map nm l.
  Proof.
    induction l as [|e l IH]; intros ns E; [injection E as <-; reflexivity|]. cbn [map shown_names] in *. unfold nm at 1. destruct (shown_name oem is_space (D e)) as [n|]; [|discriminate].
    destruct (shown_names oem is_space (map D l)) as [ms|]; [|discriminate]. injection E as <-. now rewrite (IH ms eq_refl).
  Qed.
  Lemma split_perm {X} (f : X -> bool) l : Permutation l (filter f l ++ filter (fun x => negb (f x)) l).
  Proof.
    induction l as [|x l IH]; [constructor|]. cbn. destruct (f x); cbn [negb app]; [now constructor|]. now apply Permutation_cons_app.
  Qed.
  Lemma shown_nodup items ns : good_items oem is_space items -> shown_names oem is_space (map D (shown_dirs oem is_space items ++ shown_files oem is_space items)) = Ok ns -> NoDup ns.
  Proof.
    intros G E. apply shown_nm in E as ->. apply (Permutation_NoDup (l := map nm (filter (vis oem is_space) (present items)))); [apply Permutation_map, split_perm|].
    destruct G as (V & B & U). apply valid_present in V. set (l := present items) in *. assert (U' : forall pre e between e' after name, l = pre ++ e :: between ++ e' :: after -> vis oem is_space e = true -> vis oem is_space e' = true ->
      FatTree_Spec.called oem e name -> ~ FatTree_Spec.called oem e' name).
    { intros pre e bt e' after name El X X'. rewrite Forall_forall in V, B. assert (I : In e l) by (rewrite El; apply in_or_app; right; now left). assert (I' : In e' l) by (rewrite El; apply in_or_app; right; right; apply in_or_app; right; now left).
      apply (U pre e bt e' after name El); [now apply (visible_bit oem is_space Blank); auto|now apply (visible_bit oem is_space Blank); auto]. }
    clear U. clearbody l. induction l as [|e l IH]; [constructor|]. apply Forall_cons_iff in V as (V0 & V). apply Forall_cons_iff in B as (B0 & B). cbn [filter].
    assert (IH' : NoDup (map nm (filter (vis oem is_space) l))) by (apply IH; try assumption; intros pre e0 bt e' after name El; apply (U' (e :: pre) e0 bt e' after name); now rewrite El).
    destruct (vis oem is_space e) eqn:Ve; [|exact IH']. cbn [map]. constructor; [|exact IH']. intros I. apply in_map_iff in I as (e' & En & I). apply filter_In in I as (I & Ve').
    assert (Called : forall x, valid_entry x -> no_blank_end oem is_space x -> FatTree_Spec.called oem x (nm x)).
    { intros x Vx Bx. destruct (shown_of oem is_space Blank x Vx Bx) as (n & S & X). unfold nm. rewrite X. destruct S as [S|(_ & S)]; [now left|now right]. }
    apply in_split in I as (a & c & ->). rewrite Forall_forall in V, B. assert (Ie : In e' (a ++ e' :: c)) by (apply in_or_app; right; now left). apply (U' [] e a e' c (nm e) eq_refl Ve Ve' (Called e V0 B0)). rewrite <- En. apply Called; auto.
  Qed.
End Distinct.
