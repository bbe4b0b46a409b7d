From Coq Require Import Ascii String.
From Verif Require Import PyBase PyDict PyStr Path_Model Path_Spec Path_Proofs FileInfo Rar_Proofs Sqlar_Model Sqlar_Spec.

(** ** Patterns *)
Lemma In_suffixes u s : In u (suffixes s) <-> exists a, s = a ++ u.
Proof.
  induction s as [|c s IH]; cbn [suffixes In].
  - split; [intros [<-|[]]; now exists []|]. intros (a & E). symmetry in E. apply app_eq_nil in E as (_ & ->). now left.
  - rewrite IH. split.
    + intros [<-|(a & ->)]; [now exists []|now exists (c :: a)].
    + intros ([|x a] & E); [left; exact E|]. right. injection E as -> E. now exists a.
Qed.
Lemma glob_star n s : glob_go (S (S n)) $"*" s = true.
Proof.
  change (existsb (glob_go (S n) []) (suffixes s) = true). apply existsb_exists. exists []. split; [|reflexivity].
  apply In_suffixes. exists s. now rewrite app_nil_r.
Qed.
Lemma glob_prefix q : plain_text q -> forall s n, (length q < n)%nat -> glob_go (S n) (q ++ $"*") s = true <-> exists t, s = q ++ t.
Proof.
  induction q as [|c q IH]; intros P s n L; cbn [app].
  - destruct n as [|n]; [cbn in L; lia|]. rewrite glob_star. split; [now exists s|reflexivity].
  - destruct (P c (or_introl eq_refl)) as (P1 & P2 & P3). cbn [glob_go].
    destruct (char_eqb_spec c "*"); [congruence|]. destruct s as [|x s]; [split; [discriminate|intros (t & E); discriminate]|].
    destruct (char_eqb_spec c "?"); [congruence|]. destruct (char_eqb_spec c "["); [congruence|].
    destruct n as [|n]; [cbn in L; lia|]. rewrite andb_true_iff. rewrite IH; [|intros y I; apply P; now right|cbn [length] in L; lia].
    destruct (char_eqb_spec c x) as [<-|N].
    + split; [intros (_ & t & ->); now exists t|intros (t & E); split; [reflexivity|]; injection E as E; now exists t].
    + split; [intros (E & _); discriminate|intros (t & E); congruence].
Qed.
Lemma glob_plain q s : plain_text q -> glob (q ++ $"*") s = true <-> exists t, s = q ++ t.
Proof. intros P. unfold glob. apply glob_prefix; [exact P|]. rewrite app_length. change (length $"*") with 1%nat. lia. Qed.
Lemma glob_slash s : glob $"*/*" s = true <-> In slash s.
Proof.
  change (existsb (glob_go 3 $"/*") (suffixes s) = true <-> In slash s). rewrite existsb_exists. split.
  - intros (u & I & G). change (glob_go 3 ($"/" ++ $"*") u = true) in G. apply glob_prefix in G; [|intros c [<-|[]]; repeat split; discriminate|cbn; lia].
    destruct G as (t & ->). apply In_suffixes in I as (a & ->). apply in_or_app. right. now left.
  - intros I. apply in_split in I as (a & b & ->). exists (slash :: b). split; [apply In_suffixes; now exists a|].
    change (glob_go 3 ($"/" ++ $"*") ($"/" ++ b) = true). apply glob_prefix; [intros c [<-|[]]; repeat split; discriminate|cbn; lia|now exists b].
Qed.

(** ** Names *)
Lemma denotes_lstrip s : denotes (lstrip slash s) = denotes s.
Proof.
  induction s as [|c s IH]; [reflexivity|]. destruct (char_eqb_spec c slash) as [->|N].
  - rewrite lstrip_sep, denotes_cons_slash. exact IH.
  - now rewrite lstrip_id.
Qed.
Lemma split_lstrip x s : x <> [] -> In x (split slash (lstrip slash s)) -> In x (split slash s).
Proof.
  intros X. induction s as [|c s IH]; [auto|]. destruct (char_eqb_spec c slash) as [->|N].
  - rewrite lstrip_sep, split_cons_sep. intros I. right. auto.
  - now rewrite lstrip_id.
Qed.
Lemma norm_no_dots comps acc : ~ In $".." comps -> fold_left (norm_comp 0) comps acc = fold_left enter comps acc.
Proof.
  revert acc. induction comps as [|c comps IH]; intros acc H; cbn [fold_left]; [reflexivity|].
  assert (E : norm_comp 0 acc c = enter acc c).
  { unfold norm_comp, enter. destruct (str_eqb_spec c []) as [->|]; [reflexivity|]. destruct (str_eqb_spec c $"."); [reflexivity|].
    cbn [orb]. destruct (str_eqb_spec c $"..") as [->|]; [exfalso; apply H; now left|reflexivity]. }
  rewrite E. apply IH. intros I. apply H. now right.
Qed.
Lemma normal_stays name : stays name -> normal_name name = join $"/" (denotes name).
Proof.
  intros (D & S). unfold normal_name. rewrite <- denotes_lstrip. rewrite <- denotes_lstrip in D.
  assert (S' : ~ In $".." (split slash (lstrip slash name))) by (intros I; apply S; apply split_lstrip; [discriminate|exact I]).
  pose proof (lstrip_head slash name) as L. set (s := lstrip slash name) in *. clearbody s. unfold posix_normpath.
  destruct s as [|c s]; [now cbn in D|]. specialize (L c s eq_refl).
  assert (B : starts_with $"/" (c :: s) = false).
  { cbn [starts_with list_ascii_of_string]. destruct (char_eqb_spec "/"%char c) as [<-|N]; [now destruct L|reflexivity]. }
  rewrite B. cbn [repeat app]. rewrite norm_no_dots by exact S'. unfold denotes in *.
  destruct (join $"/" (fold_left enter (split slash (c :: s)) [])) eqn:J; [|reflexivity].
  exfalso. revert J. apply join_nonempty; [apply (denotes_proper (c :: s))|exact D].
Qed.

(** ** The two modes *)
Section Table.
Variable table : list srow.
Hypothesis PT : proper_table table.
Hypothesis ST : Forall (fun r => stays (s_name r)) table.
Variables now uid gid : Z.

Lemma row_stays r : In r table -> stays (s_name r).
Proof. intros I. rewrite Forall_forall in ST. exact (ST r I). Qed.
Lemma row_key r : In r table -> normal_name (s_name r) = join $"/" (denotes (s_name r)).
Proof. intros I. now apply normal_stays, row_stays. Qed.

Lemma dict_of_cons_not_nil {V} (k : str) (v : V) l : dict_of str_eqb ((k, v) :: l) <> [].
Proof.
  intros E. assert (I : In k (dkeys (dict_of str_eqb ((k, v) :: l)))).
  { unfold dict_of. apply (In_dkeys_dupdate str_eqb str_eqb_spec). right. now left. }
  rewrite E in I. destruct I.
Qed.
Lemma two_modes :
  files table = [] /\ (forall r, In r table -> s_name r = join $"/" (denotes (s_name r))) \/
  files table <> [] /\ files table = dict_of str_eqb (map (fun r => (normal_name (s_name r), s_rowid r)) table).
Proof.
  unfold files. destruct (existsb _ table) eqn:E.
  - right. split; [|reflexivity]. clear PT ST. destruct table as [|r t]; [discriminate|]. cbn [map]. apply dict_of_cons_not_nil.
  - left. split; [reflexivity|]. intros r I. rewrite <- row_key by exact I.
    destruct (str_eqb_spec (normal_name (s_name r)) (s_name r)) as [Q|N]; [now symmetry|].
    exfalso. assert (existsb (fun r => negb (str_eqb (normal_name (s_name r)) (s_name r))) table = true); [|congruence].
    apply existsb_exists. exists r. split; [exact I|]. apply negb_true_iff, str_eqb_neq. exact N.
Qed.

(** ** Looking up *)
Lemma find_key {K} (eqb : K -> K -> bool) (E : forall a b, reflect (a = b) (eqb a b)) (k : srow -> K) l r :
  NoDup (map k l) -> In r l -> find (fun x => eqb (k x) (k r)) l = Some r.
Proof.
  induction l as [|x l IH]; [intros _ []|]. cbn [map find]. intros N [->|I].
  - destruct (E (k r) (k r)); [reflexivity|congruence].
  - inversion N as [|? ? N1 N2]; subst. destruct (E (k x) (k r)) as [Q|Q]; [exfalso; apply N1; rewrite Q; now apply in_map|auto].
Qed.
Lemma last_row_In loc r : last_row table loc r -> In r table /\ denotes (s_name r) = loc.
Proof. clear PT ST. intros (b & a & -> & D & _). split; [apply in_or_app; right; now left|exact D]. Qed.
Lemma last_row_exists loc : (exists r, In r table /\ denotes (s_name r) = loc) -> exists r, last_row table loc r.
Proof.
  clear PT ST. induction table as [|x l IH] using rev_ind; [intros (r & [] & _)|]. intros (r & I & D).
  destruct (list_eq_dec (list_eq_dec ascii_dec) (denotes (s_name x)) loc) as [Q|Q].
  - exists x, l, []. split; [reflexivity|]. split; [exact Q|constructor].
  - apply in_app_or in I as [I|[->|[]]]; [|contradiction]. destruct IH as (r' & b & a & E & D' & F); [now exists r|].
    exists r', b, (a ++ [x]). split; [rewrite E; now rewrite <- app_assoc|]. split; [exact D'|]. apply Forall_app. split; [exact F|now constructor].
Qed.

Lemma written_not_root loc : loc <> [] -> Forall proper_name loc -> str_eqb (written loc) $"/" = false.
Proof. intros N H. apply str_eqb_neq. intros E. now apply written_root in E. Qed.

Lemma lookup_last loc r : Forall proper_name loc -> loc <> [] -> last_row table loc r ->
  sqlar_lookup table now uid gid (written loc) = Some (sqlar_info uid gid r).
Proof.
  intros H N L. unfold sqlar_lookup. rewrite written_not_root by assumption.
  destruct (last_row_In _ _ L) as (I & D). destruct two_modes as [(E & C)|(E & F)].
  - rewrite E. rewrite strip_written by assumption. rewrite <- D, <- (C r I).
    rewrite (find_key str_eqb str_eqb_spec s_name) by (try apply PT; exact I). reflexivity.
  - destruct (files table) as [|f fs] eqn:Q; [congruence|]. rewrite <- Q in *. clear Q.
    assert (G : dget str_eqb (files table) (lstrip slash (written loc)) = Some (s_rowid r)).
    { rewrite F. rewrite lstrip_written by assumption. destruct L as (b & a & T & _ & A). rewrite T.
      rewrite map_app. cbn [map]. rewrite (row_key r I), D. apply dget_last. rewrite map_map. cbn [fst]. rewrite in_map_iff. intros (x & X & J).
      assert (Jt : In x table) by (rewrite T; apply in_or_app; right; now right). rewrite row_key in X by exact Jt.
      apply join_inj in X; [|apply denotes_proper|exact H]. rewrite Forall_forall in A. now apply (A x J). }
    rewrite G. rewrite (find_key Z.eqb Z.eqb_spec s_rowid) by (try apply PT; exact I). reflexivity.
Qed.
Lemma lookup_none loc : Forall proper_name loc -> loc <> [] -> (forall r, In r table -> denotes (s_name r) <> loc) ->
  sqlar_lookup table now uid gid (written loc) = None.
Proof.
  intros H N A. unfold sqlar_lookup. rewrite written_not_root by assumption. destruct two_modes as [(E & C)|(E & F)].
  - rewrite E. rewrite strip_written by assumption. destruct (find _ table) as [r|] eqn:Q; [|reflexivity].
    apply find_some in Q as (I & Q). apply str_eqb_eq in Q. exfalso. apply (A r I). rewrite (C r I) in Q. apply join_inj in Q; [exact Q|apply denotes_proper|exact H].
  - destruct (files table) as [|f fs] eqn:Q; [congruence|]. rewrite <- Q in *. clear Q.
    replace (dget str_eqb (files table) (lstrip slash (written loc))) with (@None Z); [reflexivity|]. symmetry.
    apply (dget_None str_eqb str_eqb_spec). rewrite F. unfold dict_of. rewrite (In_dkeys_dupdate str_eqb str_eqb_spec). intros [[]|I].
    unfold dkeys in I. rewrite map_map in I. cbn [fst] in I. apply in_map_iff in I as (x & X & J). rewrite row_key in X by exact J.
    rewrite lstrip_written in X by assumption. apply join_inj in X; [|apply denotes_proper|exact H]. now apply (A x J).
Qed.

(** ** Listing *)
Definition sub_path (loc : location) : str := match loc with [] => [] | _ => join $"/" loc ++ $"/" end.
Lemma names_prefix loc : Forall proper_name loc ->
  match lstrip slash (written loc) with [] => [] | _ => if ends_with $"/" (lstrip slash (written loc)) then lstrip slash (written loc) else lstrip slash (written loc) ++ $"/" end = sub_path loc.
Proof.
  intros H. rewrite lstrip_written by exact H. destruct loc as [|x l]; [reflexivity|]. unfold sub_path.
  pose proof (join_nonempty (x :: l) H ltac:(discriminate)) as J. pose proof (rstrip_join (x :: l) H) as R. set (s := join $"/" (x :: l)) in *. clearbody s.
  destruct (ends_with $"/" s) eqn:E; [|destruct s; [congruence|reflexivity]]. exfalso. apply ends_with_spec in E as (t & ->).
  change $"/" with [slash] in R. rewrite rstrip_snoc_sep in R. apply (f_equal (@length ascii)) in R. rewrite app_length in R. cbn in R.
  enough (L : (length (rstrip slash t) <= length t)%nat) by lia. clear. unfold rstrip. rewrite rev_length.
  assert (G : forall u, (length (lstrip slash u) <= length u)%nat).
  { induction u as [|c u IH]; [constructor|]. destruct (char_eqb_spec c slash) as [->|Q]; [rewrite lstrip_sep; cbn [length]; lia|now rewrite lstrip_id]. }
  specialize (G (rev t)). now rewrite rev_length in G.
Qed.
Lemma below_sub loc loc' t : Forall proper_name loc -> Forall proper_name loc' -> loc' <> [] ->
  join $"/" loc' = sub_path loc ++ t <-> exists rest, rest <> [] /\ loc' = loc ++ rest /\ t = join $"/" rest.
Proof.
  intros H H' N. unfold sub_path. destruct loc as [|x l].
  - cbn [app]. split; [intros <-; now exists loc'|]. intros (rest & _ & -> & ->). reflexivity.
  - set (loc := x :: l) in *. assert (N0 : loc <> []) by discriminate. pose proof (below_key loc loc' false t H H' N0 N) as B. unfold key in B. rewrite app_nil_r in B. split.
    + intros E. destruct (B E) as (rest & E' & [(_ & _ & F)|(R & T)]); [discriminate|]. exists rest. rewrite app_nil_r in T. now split.
    + intros (rest & R & -> & ->). rewrite join_app by assumption. now rewrite <- app_assoc.
Qed.
Lemma first_name n rest : proper_name n ->
  match split1 slash (join $"/" (n :: rest)) with Some (first, _) => first | None => join $"/" (n :: rest) end = n.
Proof.
  intros (_ & _ & _ & S). destruct rest as [|m rest].
  - cbn [join]. destruct (split1 slash n) as [[a b]|] eqn:E; [|reflexivity]. apply split1_Some in E as (-> & _). exfalso. apply S. apply in_or_app. right. now left.
  - rewrite join_cons. change (n ++ $"/" ++ join $"/" (m :: rest)) with (n ++ slash :: join $"/" (m :: rest)).
    assert (Q : split1 slash (n ++ slash :: join $"/" (m :: rest)) = Some (n, join $"/" (m :: rest))) by (apply split1_Some; now split).
    now rewrite Q.
Qed.

Definition collect (pre : str) (names : list str) (f : str * Z) : list str :=
  if negb (starts_with pre (fst f)) then names
  else let rest := skipn (length pre) (fst f) in
       let name := match split1 slash rest with Some (first, _) => first | None => rest end in
       if existsb (str_eqb name) names then names else names ++ [name].
Lemma collect_all pre fs names n :
  In n (fold_left (collect pre) fs names) <-> In n names \/ exists f t, In f fs /\ fst f = pre ++ t /\
    n = match split1 slash t with Some (first, _) => first | None => t end.
Proof.
  revert names. induction fs as [|f fs IH]; intros names; cbn [fold_left].
  - split; [now left|intros [I|(f & t & [] & _)]; exact I].
  - rewrite IH. clear IH. unfold collect at 1. destruct (starts_with pre (fst f)) eqn:S; cbn [negb].
    + apply starts_with_spec in S as (t & S). rewrite S, skipn_app, skipn_all, Nat.sub_diag. cbn [skipn app].
      set (name := match split1 slash t with Some (first, _) => first | None => t end).
      assert (A : In n (if existsb (str_eqb name) names then names else names ++ [name]) <-> In n names \/ n = name).
      { destruct (existsb (str_eqb name) names) eqn:X.
        - split; [now left|]. intros [I| ->]; [exact I|]. apply existsb_exists in X as (y & Y & Z). apply str_eqb_eq in Z. now subst.
        - rewrite in_app_iff. cbn [In]. intuition. }
      rewrite A. split.
      * intros [[I|I]|(g & u & G & U)]; [now left| |right; exists g, u; split; [now right|exact U]].
        right. exists f, t. split; [now left|now split].
      * intros [I|(g & u & [<-|G] & U & V)]; [now left; left| |right; now exists g, u]. left. right. rewrite S in U. apply app_inv_head in U. now subst.
    + split.
      * intros [I|(g & u & G & U)]; [now left|]. right. exists g, u. split; [now right|exact U].
      * intros [I|(g & u & [<-|G] & U & V)]; [now left| |right; now exists g, u].
        exfalso. assert (starts_with pre (fst f) = true); [|congruence]. apply starts_with_spec. now exists u.
Qed.
Lemma collect_nodup pre fs names : NoDup names -> NoDup (fold_left (collect pre) fs names).
Proof.
  revert names. induction fs as [|f fs IH]; intros names H; cbn [fold_left]; [exact H|]. apply IH. unfold collect.
  destruct (negb (starts_with pre (fst f))); [exact H|]. destruct (existsb _ names) eqn:E; [exact H|]. apply NoDup_snoc; [exact H|].
  intros I. assert (existsb (str_eqb (match split1 slash (skipn (length pre) (fst f)) with Some (first, _) => first | None => skipn (length pre) (fst f) end)) names = true); [|congruence].
  apply existsb_exists. eexists. split; [exact I|]. apply str_eqb_refl.
Qed.
Lemma list_names_spec loc n : Forall proper_name loc -> files table <> [] ->
  In n (list_names table (written loc)) <-> exists r rest, In r table /\ denotes (s_name r) = loc ++ n :: rest.
Proof.
  intros H N. destruct two_modes as [(E & _)|(_ & F)]; [congruence|]. unfold list_names.
  rewrite names_prefix by exact H. change (In n (fold_left (collect (sub_path loc)) (files table) []) <-> exists r rest, In r table /\ denotes (s_name r) = loc ++ n :: rest).
  rewrite collect_all.
  assert (K : forall k, (exists v, In (k, v) (files table)) <-> exists r, In r table /\ k = join $"/" (denotes (s_name r))).
  { intros k. transitivity (In k (dkeys (files table))).
    - unfold dkeys. rewrite in_map_iff. split; [intros (v & I); exists (k, v); now split|intros ([k' v] & <- & I); now exists v].
    - rewrite F. unfold dict_of. rewrite (In_dkeys_dupdate str_eqb str_eqb_spec). unfold dkeys at 2. rewrite map_map. cbn [fst]. rewrite in_map_iff. split.
      + intros [[]|(r & <- & I)]. exists r. split; [exact I|now apply row_key].
      + intros (r & I & ->). right. exists r. split; [now apply row_key|exact I]. }
  split.
  - intros [[]|([k v] & t & I & E & ->)]. cbn [fst] in E. destruct (proj1 (K k)) as (r & R & ->); [now exists v|].
    apply below_sub in E; [|exact H|apply denotes_proper|apply row_stays, R]. destruct E as ([|m rest] & X & D & ->); [congruence|].
    exists r, rest. split; [exact R|]. pose proof (denotes_proper (s_name r)) as P. rewrite D in P. apply Forall_app in P as (_ & P). apply Forall_inv in P. rewrite (first_name m rest P). exact D.
  - intros (r & rest & R & D). right. destruct (proj2 (K (join $"/" (denotes (s_name r))))) as (v & I); [now exists r|].
    exists (join $"/" (denotes (s_name r)), v), (join $"/" (n :: rest)). split; [exact I|].
    pose proof (denotes_proper (s_name r)) as P. rewrite D in P. apply Forall_app in P as (_ & P). apply Forall_inv in P. split; [|symmetry; now apply first_name].
    cbn [fst]. apply below_sub; [exact H|apply denotes_proper|apply row_stays, R|]. exists (n :: rest). split; [discriminate|now split].
Qed.

Lemma path_glob_sub loc : Forall proper_name loc -> path_glob (written loc) = sub_path loc ++ $"*".
Proof.
  intros H. unfold path_glob. destruct loc as [|x l]; [reflexivity|]. rewrite written_not_root by (discriminate || assumption).
  rewrite strip_written by (discriminate || assumption). unfold sub_path. now rewrite <- app_assoc.
Qed.
Lemma sub_plain loc : plain_text (join $"/" loc) -> plain_text (sub_path loc).
Proof.
  intros P c I. destruct loc as [|x l]; [destruct I|]. unfold sub_path in I. apply in_app_or in I as [I|[<-|[]]]; [now apply P|repeat split; discriminate].
Qed.
Lemma select_spec loc n r : Forall proper_name loc -> plain_text (join $"/" loc) -> files table = [] ->
  In (n, r) (select_folder table (written loc)) <-> In r table /\ denotes (s_name r) = loc ++ [n].
Proof.
  intros H P E. destruct two_modes as [(_ & C)|(X & _)]; [|congruence]. unfold select_folder. rewrite path_glob_sub by exact H.
  rewrite app_length. change (length $"*") with 1%nat. rewrite Nat.add_sub. rewrite in_flat_map.
  assert (A : forall x, In x table -> (In (n, r) (if glob (sub_path loc ++ $"*") (s_name x) && negb (glob $"*/*" (skipn (length (sub_path loc)) (s_name x)))
                              then [(skipn (length (sub_path loc)) (s_name x), x)] else []) <-> x = r /\ denotes (s_name x) = loc ++ [n])).
  { intros x I. pose proof (C x I) as Cx. pose proof (denotes_proper (s_name x)) as Px. pose proof (proj1 (row_stays x I)) as Nx.
    destruct (glob (sub_path loc ++ $"*") (s_name x)) eqn:G.
    - apply glob_plain in G; [|now apply sub_plain]. destruct G as (t & G). rewrite G, skipn_app, skipn_all, Nat.sub_diag. cbn [skipn app andb].
      rewrite <- G. rewrite Cx in G. apply below_sub in G; [|exact H|exact Px|exact Nx]. destruct G as (rest & R & D & ->).
      rewrite D in Px. apply Forall_app in Px as (_ & Px).
      destruct (glob $"*/*" (join $"/" rest)) eqn:S; cbn [negb].
      + apply glob_slash in S. split; [intros []|]. intros (-> & D'). rewrite D in D'. apply app_inv_head in D'. subst rest.
        cbn [join] in S. apply Forall_inv in Px. destruct Px as (_ & _ & _ & Px). now apply Px.
      + destruct rest as [|m [|m' rest]]; [congruence| |].
        * cbn [join In]. rewrite D. split; [intros [Q|[]]; injection Q as -> ->; now split|]. intros (-> & D'). apply app_inv_head in D'. injection D' as ->. now left.
        * exfalso. assert (glob $"*/*" (join $"/" (m :: m' :: rest)) = true); [|congruence]. apply glob_slash. cbn [join]. apply in_or_app. right. now left.
    - cbn [andb]. split; [intros []|]. intros (-> & D). exfalso. assert (glob (sub_path loc ++ $"*") (s_name r) = true); [|congruence].
      apply glob_plain; [now apply sub_plain|]. exists n. rewrite Cx. apply below_sub; [exact H|exact Px|exact Nx|]. exists [n]. split; [discriminate|]. now split. }
  split.
  - intros (x & I & J). apply A in J; [|exact I]. destruct J as (-> & D). now split.
  - intros (I & D). exists r. split; [exact I|]. apply A; [exact I|now split].
Qed.
Lemma NoDup_denotes : files table = [] -> forall a b, In a table -> In b table -> denotes (s_name a) = denotes (s_name b) -> a = b.
Proof.
  intros E a b A B D. destruct two_modes as [(_ & C)|(X & _)]; [|congruence].
  assert (Q : s_name a = s_name b) by (rewrite (C a A), (C b B), D; reflexivity).
  pose proof (find_key str_eqb str_eqb_spec s_name table a (proj1 PT) A) as Fa. pose proof (find_key str_eqb str_eqb_spec s_name table b (proj1 PT) B) as Fb.
  rewrite Q in Fa. congruence.
Qed.
Lemma select_nodup loc : Forall proper_name loc -> plain_text (join $"/" loc) -> files table = [] -> NoDup (map fst (select_folder table (written loc))).
Proof.
  intros H P E.
  assert (G : forall l, (forall r, In r l -> In r table) -> NoDup (map s_name l) ->
    let sel := flat_map (fun r => if glob (path_glob (written loc)) (s_name r) && negb (glob $"*/*" (skipn (length (path_glob (written loc)) - 1) (s_name r)))
                                  then [(skipn (length (path_glob (written loc)) - 1) (s_name r), r)] else []) l in
    NoDup (map fst sel) /\ forall n r, In (n, r) sel -> In r l /\ In (n, r) (select_folder table (written loc))).
  { induction l as [|x l IH]; intros S N sel; [split; [constructor|intros n r []]|]. inversion N as [|? ? N1 N2]; subst.
    destruct (IH (fun r I => S r (or_intror I)) N2) as (I1 & I2). clear IH.
    assert (Own : forall n r, In (n, r) sel -> In r (x :: l) /\ In (n, r) (select_folder table (written loc))).
    { intros n r J. unfold sel in J. assert (J0 := J). apply in_flat_map in J as (y & Y & J).
      assert (K : r = y). { destruct (glob _ (s_name y) && _) in J; [|destruct J]. destruct J as [J|[]]. now injection J. } subst y.
      split; [exact Y|]. unfold select_folder. apply in_flat_map. exists r. split; [now apply S|exact J]. }
    split; [|exact Own]. unfold sel. cbn [flat_map]. destruct (glob _ (s_name x) && _) eqn:C; [|exact I1]. cbn [app map fst]. constructor; [|exact I1].
    intros J. apply in_map_iff in J as ([m r] & J1 & J2). cbn [fst] in J1. destruct (I2 m r J2) as (R1 & R2). apply select_spec in R2; [|assumption..]. destruct R2 as (R2 & R3).
    assert (X : In (skipn (length (path_glob (written loc)) - 1) (s_name x), x) (select_folder table (written loc))).
    { unfold select_folder. apply in_flat_map. exists x. split; [apply S; now left|]. rewrite C. now left. }
    apply select_spec in X; [|assumption..]. destruct X as (X1 & X2). rewrite <- J1 in X2. rewrite <- R3 in X2.
    apply NoDup_denotes in X2; [|assumption..]. subst x. apply N1. now apply in_map. }
  apply (G table (fun r I => I) (proj1 PT)).
Qed.
End Table.
