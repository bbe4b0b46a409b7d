(** Proofs about the folder backends. *)
From Coq Require Import Ascii String Permutation.
From Verif Require Import PyBase PyDict PyStr Path_Model Path_Spec Path_Proofs FileInfo Index_Model Index_Spec Index_Proofs Build_Proofs TreeIndex_Proofs Folder_Model Folder_Spec.
Local Open Scope Z_scope.

(** ** Counting *)
Definition up_step : Z * Z -> str -> Z * Z := fun '(result, upCount) part =>
  if str_eqb part $".." then (Z.max result (upCount + 1), upCount + 1)
  else if str_eqb part $"." || str_eqb part [] then (result, upCount)
  else (result, upCount - 1).

Lemma up_monotone comps : forall r u, r <= fst (fold_left up_step comps (r, u)).
Proof.
  induction comps as [|c comps IH]; intros r u; [cbn; lia|]. cbn [fold_left]. unfold up_step at 2.
  destruct (str_eqb c $".."); [|destruct (str_eqb c $"." || str_eqb c []); apply IH]. specialize (IH (Z.max r (u + 1)) (u + 1)). lia.
Qed.

Lemma up_leaves comps : forall loc r u d, Z.of_nat (length loc) + u = d -> r <= d ->
  (d < fst (fold_left up_step comps (r, u)) <-> leaves loc comps).
Proof.
  induction comps as [|c comps IH]; intros loc r u d L R; [cbn; split; [lia|intros []]|]. cbn [fold_left leaves]. unfold up_step at 2.
  destruct (str_eqb_spec c $"..") as [->|N].
  - destruct loc as [|x loc _] using rev_ind.
    + split; [intros _; left; auto|]. intros _. cbn in L. pose proof (up_monotone comps (Z.max r (u + 1)) (u + 1)). lia.
    + rewrite app_length in L. cbn [length] in L. rewrite (IH loc) by lia. assert (enter (loc ++ [x]) $".." = loc) as ->.
      { unfold enter. cbn [str_eqb]. change (str_eqb $".." []) with false. change (str_eqb $".." $".") with false. rewrite str_eqb_refl. apply removelast_last. }
      split; [now right|]. intros [[_ E]|H]; [destruct loc; discriminate|exact H].
  - unfold enter. destruct (str_eqb_spec c []) as [->|N0].
    + rewrite orb_true_r. rewrite (IH loc) by lia. split; [now right|]. intros [[E _]|H]; [contradiction|exact H].
    + rewrite orb_false_r. destruct (str_eqb_spec c $".") as [->|N1].
      * rewrite (IH loc) by lia. split; [now right|]. intros [[E _]|H]; [contradiction|exact H].
      * apply str_eqb_neq in N as N2. rewrite N2. rewrite (IH (loc ++ [c])) by (rewrite ?app_length; cbn [length]; lia). split; [now right|]. intros [[E _]|H]; [contradiction|exact H].
Qed.

Lemma relative_starts t : starts_with $"/" t = false <-> relative t.
Proof.
  split.
  - intros E x ->. discriminate E.
  - intros R. destruct (starts_with $"/" t) eqn:E; [|reflexivity]. apply starts_with_spec in E as [x ->]. now destruct (R x).
Qed.

Lemma up_count_leaves loc t : relative t -> (Z.of_nat (length loc) < max_up_count t <-> leaves loc (split slash t)).
Proof.
  intros R. unfold max_up_count. rewrite (proj2 (relative_starts t) R).
  rewrite <- (up_leaves (split slash t) loc 0 0 (Z.of_nat (length loc))) by lia. reflexivity.
Qed.

(** ** Paths *)
Lemma count_join loc : Forall proper_name loc -> loc <> [] -> S (count_occ ascii_dec (join $"/" loc) slash) = length loc.
Proof.
  intros P. induction P as [|n loc Pn P IH]; [congruence|]. intros _. assert (count_occ ascii_dec n slash = O) as Z0 by (apply count_occ_not_In; apply Pn).
  destruct loc as [|m loc]; [cbn [join length]; now rewrite Z0|]. rewrite join_cons. rewrite !count_occ_app.
  change (count_occ ascii_dec $"/" slash) with 1%nat. specialize (IH ltac:(discriminate)). rewrite Z0. change (length (n :: m :: loc)) with (S (length (m :: loc))). rewrite <- IH. reflexivity.
Qed.

Lemma join_relative loc : Forall proper_name loc -> starts_with $"/" (join $"/" loc) = false.
Proof.
  intros P. apply relative_starts. intros t E. pose proof (join_head loc P) as H. rewrite E in H. rewrite lstrip_sep in H.
  apply (f_equal (@length _)) in H. assert (forall s, (length (lstrip slash s) <= length s)%nat) as L.
  { induction s as [|x s IH]; [apply le_n|]. destruct (char_eqb_spec x slash) as [->|Nx]; [rewrite lstrip_sep; apply le_S; exact IH|rewrite lstrip_id by exact Nx; apply le_n]. }
  specialize (L t). rewrite H in L. exact (Nat.nle_succ_diag_l _ L).
Qed.

Lemma name_end n a : proper_name n -> a ++ n <> [] /\ ends_with $"/" (a ++ n) = false.
Proof.
  intros (N1 & _ & _ & N2). destruct (exists_last N1) as (n' & c & ->). split; [destruct a; [destruct n'|]; discriminate|].
  rewrite app_assoc. destruct (ends_with $"/" ((a ++ n') ++ [c])) eqn:E; [|reflexivity]. apply ends_with_spec in E as [t E]. apply app_inj_tail in E as [_ ->].
  exfalso. apply N2. apply in_or_app. right. now left.
Qed.

Lemma os_join_plain a n : a <> [] -> ends_with $"/" a = false -> os_join a n = a ++ $"/" ++ n.
Proof. intros N E. unfold os_join. rewrite E, orb_false_r. apply str_eqb_neq in N. now rewrite N. Qed.

Lemma os_joins loc : Forall proper_name loc -> forall a, a <> [] -> ends_with $"/" a = false -> loc <> [] -> fold_left os_join loc a = a ++ $"/" ++ join $"/" loc.
Proof.
  induction 1 as [|n loc Pn P IH]; intros a Na Ea Ne; [congruence|]. cbn [fold_left]. rewrite os_join_plain by assumption.
  destruct loc as [|m loc]; [reflexivity|]. destruct (name_end n (a ++ $"/") Pn) as [N E]. rewrite <- app_assoc in N, E. rewrite (IH _ N E) by discriminate.
  rewrite join_cons. now rewrite <- !app_assoc.
Qed.

Section Folder.
  Variable root : str.
  Variable tree : node.
  Variable follow : str -> option (str * stats).

  Lemma realpath_join loc : Forall proper_name loc -> realpath root (join $"/" loc) = os_path root loc.
  Proof.
    intros P. unfold realpath, os_path. destruct loc as [|n loc].
    { change (split slash (strip slash (join $"/" []))) with [@nil ascii]. cbn [fold_left join]. unfold os_join. destruct (str_eqb root [] || ends_with $"/" root); cbn [app]; now rewrite ?app_nil_r. }
    assert (strip slash (join $"/" (n :: loc)) = join $"/" (n :: loc)) as ->.
    { rewrite <- (strip_written (n :: loc)) at 2 by (assumption || discriminate). unfold strip, written. now rewrite lstrip_sep. }
    change $"/" with [slash]. rewrite split_join by (try discriminate; now apply proper_no_slash). change [slash] with $"/".
    destruct (str_eqb root [] || ends_with $"/" root) eqn:E.
    - cbn [fold_left]. unfold os_join at 2. rewrite E. cbn [app]. inversion P as [|? ? Pn Pl]; subst. destruct loc as [|m loc]; [reflexivity|].
      destruct (name_end n root Pn) as [N Ee]. rewrite os_joins by (assumption || discriminate). rewrite join_cons. now rewrite <- !app_assoc.
    - apply orb_false_iff in E as [E1 E2]. apply str_eqb_neq in E1. rewrite os_joins by (assumption || discriminate). reflexivity.
  Qed.

  Lemma realpath_written loc : Forall proper_name loc -> realpath root (written loc) = os_path root loc.
  Proof. intros P. rewrite <- realpath_join by exact P. unfold realpath, strip, written. now rewrite lstrip_sep. Qed.

  Lemma filter_names loc : Forall proper_name loc -> filter nonempty (split slash (join $"/" loc)) = loc.
  Proof.
    intros P. destruct loc as [|n loc]; [reflexivity|]. change $"/" with [slash]. rewrite split_join by (try discriminate; now apply proper_no_slash).
    clear -P. induction P as [|m l Pm P IH]; [reflexivity|]. cbn [filter]. unfold nonempty at 1. destruct (str_eqb_spec m []) as [E|_]; [now destruct Pm|]. cbn. now rewrite IH.
  Qed.

  Lemma os_at_path loc : Forall proper_name loc -> os_at root tree (os_path root loc) = walk tree loc.
  Proof.
    intros P. unfold os_at, os_path. rewrite starts_with_app, skipn_app, skipn_all, Nat.sub_diag. cbn [skipn app].
    destruct (str_eqb root [] || ends_with $"/" root); cbn [app]; [now rewrite filter_names|].
    change ($"/" ++ join $"/" loc) with (slash :: join $"/" loc). rewrite split_cons_sep. cbn [filter nonempty]. unfold nonempty at 1. cbn [str_eqb].
    change (negb (str_eqb [] [])) with false. cbn iota. now rewrite filter_names.
  Qed.

  Lemma walk_found e : tree_ok e -> forall loc x, walk e loc = Some x <-> found e loc x.
  Proof.
    intros T loc. revert e T. induction loc as [|n loc IH]; intros e T x; cbn [walk].
    - split; [intros [= <-]; constructor|]. intros F. now inversion F.
    - destruct T as [s l K|s l fs K N P Tf]; cbn [n_children].
      + split; [discriminate|]. intros F. inversion F.
      + split.
        * destruct (dget str_eqb fs n) as [m|] eqn:E; [|discriminate]. apply dget_Some_In in E; [|exact str_eqb_spec]. intros W. apply (found_below s l fs n m); [exact E|].
          apply IH; [|exact W]. rewrite Forall_map in Tf. rewrite Forall_forall in Tf. exact (Tf _ E).
        * intros F. inversion F as [|? ? ? ? c ? ? I Fc]; subst. rewrite (NoDup_dget str_eqb str_eqb_spec fs n c N I). apply IH; [|exact Fc].
          rewrite Forall_map in Tf. rewrite Forall_forall in Tf. exact (Tf _ I).
  Qed.

  Lemma found_good e loc x : tree_ok e -> found e loc x -> tree_ok x /\ Forall proper_name loc.
  Proof.
    intros T F. induction F as [e|s l fs n c loc e I F IH]; [auto|]. inversion T as [|? ? ? K N P Tf]; subst.
    rewrite Forall_map in P, Tf. rewrite Forall_forall in P, Tf. destruct IH as [H1 H2]; [exact (Tf _ I)|]. split; [exact H1|]. constructor; [exact (P _ I)|exact H2].
  Qed.
  Lemma found_join e pre f l x : found e pre f -> found f l x -> found e (pre ++ l) x.
  Proof. intros F1 F2. induction F1 as [f|s k fs n c pre f I F IH]; [exact F2|]. cbn. apply (found_below s k fs n c); auto. Qed.
  Lemma found_prefix e pre : forall l x, found e (pre ++ l) x -> exists f, found e pre f /\ found f l x.
  Proof.
    revert e. induction pre as [|n pre IH]; intros e l x F; [exists e; split; [constructor|exact F]|].
    cbn in F. inversion F as [|? ? fs n' c l' ? I Fc]; subst. destruct (IH c l x Fc) as (f & F1 & F2). exists f. split; [|exact F2]. now apply (found_below _ _ fs n c).
  Qed.
  Lemma found_fun e loc x y : tree_ok e -> found e loc x -> found e loc y -> x = y.
  Proof. intros T F G. apply (walk_found e T) in F, G. congruence. Qed.
  Lemma found_child e loc s l fs n c : found e loc (Node s l (Some fs)) -> In (n, c) fs -> found e (loc ++ [n]) c.
  Proof. intros F I. apply (found_join _ _ _ _ _ F). apply (found_below _ _ _ _ c); [exact I|constructor]. Qed.

  Hypothesis T : tree_ok tree.

  Lemma os_found loc x : Forall proper_name loc -> (os_at root tree (realpath root (written loc)) = Some x <-> found tree loc x).
  Proof. intros P. rewrite realpath_written, os_at_path by exact P. now apply walk_found. Qed.

  Lemma lookup_plain loc x v : (v = 0 \/ v = 1) -> found tree loc x -> n_link x = None ->
    lookup root tree follow (written loc) v = Some (mkInfo (st_size (n_stats x)) (st_mtime (n_stats x)) (st_mode (n_stats x)) [] (st_uid (n_stats x)) (st_gid (n_stats x)) [join $"/" loc]).
  Proof.
    intros V F L. destruct (found_good _ _ _ T F) as [_ P]. unfold lookup, exists_. rewrite (proj2 (os_found loc x P) F), L.
    assert ((v =? 0) || (v =? 1) = true) as -> by (destruct V as [-> | ->]; reflexivity). cbn [negb orb]. unfold stats_to_file_info, written. rewrite lstrip_sep, join_head by exact P. reflexivity.
  Qed.

  Lemma lookup_link loc n x t v : (v = 0 \/ v = 1) -> found tree (loc ++ [n]) x -> n_link x = Some t ->
    (exists target s, relative t /\ leaves loc (split slash t) /\ follow (os_path root (loc ++ [n])) = Some (target, s) /\
       lookup root tree follow (written (loc ++ [n])) v = Some (mkInfo (st_size s) (st_mtime s) (st_mode s) [] (st_uid s) (st_gid s) [target])) \/
    ((~ relative t \/ ~ leaves loc (split slash t) \/ follow (os_path root (loc ++ [n])) = None) /\
       lookup root tree follow (written (loc ++ [n])) v =
         Some (mkInfo (st_size (n_stats x)) (st_mtime (n_stats x)) (st_mode (n_stats x)) t (st_uid (n_stats x)) (st_gid (n_stats x)) [join $"/" (loc ++ [n])])).
  Proof.
    intros V F L. destruct (found_good _ _ _ T F) as [_ P]. unfold lookup, exists_. rewrite (proj2 (os_found _ x P) F), L.
    assert ((v =? 0) || (v =? 1) = true) as -> by (destruct V as [-> | ->]; reflexivity). cbn [negb orb]. unfold stats_to_file_info.
    replace (lstrip slash (written (loc ++ [n]))) with (join $"/" (loc ++ [n])) by (unfold written; rewrite lstrip_sep, join_head by exact P; reflexivity).
    rewrite strip_written by (try exact P; destruct loc; discriminate).
    assert (Z.of_nat (count_occ ascii_dec (join $"/" (loc ++ [n])) slash) = Z.of_nat (length loc)) as ->.
    { pose proof (count_join (loc ++ [n]) P ltac:(destruct loc; discriminate)) as C. rewrite app_length in C. cbn [length] in C. lia. }
    rewrite realpath_written by exact P. destruct (starts_with $"/" t) eqn:Es.
    - right. split; [left; intros R; apply relative_starts in R; congruence|]. reflexivity.
    - apply relative_starts in Es. cbn [negb andb]. destruct (Z.ltb_spec (Z.of_nat (length loc)) (max_up_count t)) as [Lt|Ge].
      + apply (up_count_leaves loc t Es) in Lt. destruct (follow (os_path root (loc ++ [n]))) as [[target s]|] eqn:Ef.
        * left. exists target, s. auto.
        * right. split; [auto|reflexivity].
      + right. split; [|reflexivity]. right. left. intros Lv. apply (up_count_leaves loc t Es) in Lv. lia.
  Qed.

  Lemma lookup_missing p v : Forall proper_name p -> (forall x, ~ found tree p x) -> lookup root tree follow (written p) v = None.
  Proof.
    intros P N. unfold lookup, exists_. destruct (os_at root tree (realpath root (written p))) as [x|] eqn:E; [|now rewrite orb_true_r].
    apply (os_found p x P) in E. now destruct (N x).
  Qed.

  Lemma lookup_found p : Forall proper_name p -> (lookup root tree follow (written p) 0 <> None <-> exists x, found tree p x).
  Proof.
    intros P. split.
    - intros L. destruct (os_at root tree (realpath root (written p))) as [x|] eqn:E; [apply (os_found p x P) in E; eauto|].
      exfalso. apply L. unfold lookup, exists_. now rewrite E.
    - intros [x F]. destruct (n_link x) as [t|] eqn:L.
      + destruct p as [|n p _] using rev_ind.
        * unfold lookup, exists_. rewrite (proj2 (os_found [] x P) F), L. cbn [negb orb Z.eqb]. destruct (negb (starts_with $"/" t) && _); [destruct (follow _) as [[? ?]|]|]; discriminate.
        * destruct (lookup_link p n x t 0 (or_introl eq_refl) F L) as [(tg & s & _ & _ & _ & ->)|(_ & ->)]; discriminate.
      + rewrite (lookup_plain p x 0 (or_introl eq_refl) F L). discriminate.
  Qed.

  Lemma dict_same {V} (l : list (str * V)) : NoDup (map fst l) -> dict_of str_eqb l = l.
  Proof.
    induction l as [|[k v] l IH] using rev_ind; intros N; [reflexivity|]. unfold dict_of, dupdate. rewrite fold_left_app. cbn [fold_left].
    rewrite map_app in N. cbn in N. apply NoDup_remove in N as [N1 N2]. rewrite app_nil_r in N1, N2. fold (dupdate str_eqb [] l). fold (dict_of str_eqb l). rewrite (IH N1).
    clear -N2. induction l as [|[k' v'] l IH]; [reflexivity|]. cbn [dset map fst In app] in *. destruct (str_eqb_spec k k') as [->|]; [exfalso; auto|]. now rewrite IH by auto.
  Qed.

  Lemma list_folder loc s l cs : found tree loc (Node s l (Some cs)) ->
    list_ root tree (written loc) = Some (map (fun p => (fst p, mkInfo (st_size (n_stats (snd p))) (st_mtime (n_stats (snd p))) (st_mode (n_stats (snd p))) (written loc)
      (st_uid (n_stats (snd p))) (st_gid (n_stats (snd p))) [match n_link (snd p) with Some _ => match l with Some t => t | None => [] end | None => [] end])) cs).
  Proof.
    intros F. destruct (found_good _ _ _ T F) as [Tx P]. inversion Tx as [|? ? ? K N Pn Tf]; subst. unfold list_. rewrite (proj2 (os_found loc _ P) F).
    rewrite dict_same.
    - f_equal. apply map_ext. intros [n c]. cbn [fst snd]. unfold dir_entry_to_file_info, stats_to_file_info. rewrite (proj2 (os_found loc _ P) F). reflexivity.
    - rewrite map_map. rewrite (map_ext _ fst); [exact N|]. now intros [n c].
  Qed.

  Lemma list_mode_folder loc s l cs : found tree loc (Node s l (Some cs)) ->
    list_mode root tree (written loc) = Some (map (fun p => (fst p, make_mode (snd p))) cs).
  Proof.
    intros F. destruct (found_good _ _ _ T F) as [Tx P]. inversion Tx as [|? ? ? K N Pn Tf]; subst. unfold list_mode. rewrite (proj2 (os_found loc _ P) F).
    rewrite dict_same.
    - f_equal. apply map_ext. now intros [n c].
    - rewrite map_map. rewrite (map_ext _ fst); [exact N|]. now intros [n c].
  Qed.

  Lemma list_none loc : Forall proper_name loc -> (forall s l cs, ~ found tree loc (Node s l (Some cs))) ->
    list_ root tree (written loc) = None /\ list_mode root tree (written loc) = None.
  Proof.
    intros P N. unfold list_, list_mode. destruct (os_at root tree (realpath root (written loc))) as [[s l [cs|]]|] eqn:E; auto.
    apply (os_found loc _ P) in E. now destruct (N s l cs).
  Qed.

End Folder.

(** ** The index *)
Section Indexed.
  Variable tree : node.
  Hypothesis T : tree_ok tree.
  Variable arrange : list (str * node) -> list (str * node).
  Hypothesis Ha : forall l, Permutation (arrange l) l.

  Fixpoint visited (fuel : nat) (loc : location) (n : node) : list (location * str * node) :=
    match fuel with
    | O => []
    | S f => match n_children n with
             | Some cs => map (fun p => (loc, fst p, snd p)) (arrange cs) ++ flat_map (fun p => visited f (loc ++ [fst p]) (snd p)) (arrange cs)
             | None => []
             end
    end.

  Lemma folder_of_snoc loc n : folder_of (loc ++ [n]) = folder_of loc ++ $"/" ++ n.
  Proof.
    unfold folder_of. destruct loc as [|m loc]; [reflexivity|]. cbn [app]. change (m :: loc ++ [n]) with ((m :: loc) ++ [n]). unfold written.
    rewrite join_app by discriminate. reflexivity.
  Qed.

  Definition as_entry (x : location * str * node) : str * str * node := let '(loc, name, e) := x in (folder_of loc, name, e).
  (** The recursion visits children of a folder after all its entries, and so does the walk as a list. *)
  Lemma walk_visited fuel : forall loc n,
    flat_map (fun '(path, cs) => map (fun '(name, e) => (path, name, e)) cs) (os_walk arrange fuel (folder_of loc) n) = map as_entry (visited fuel loc n).
  Proof.
    induction fuel as [|f IH]; intros loc n; [reflexivity|]. cbn [os_walk visited]. destruct (n_children n) as [cs|]; [|reflexivity].
    cbn [flat_map]. rewrite map_app, map_map. f_equal; [apply map_ext; now intros [m e]|].
    induction (arrange cs) as [|[m e] l IHl]; [reflexivity|]. cbn [flat_map fst snd]. rewrite flat_map_app, map_app, IHl. f_equal. rewrite <- folder_of_snoc. apply IH.
  Qed.

  Lemma depth_child s l cs n c : In (n, c) cs -> (depth c < depth (Node s l (Some cs)))%nat.
  Proof.
    intros I. cbn [depth]. apply Nat.lt_succ_r. induction cs as [|[m x] cs IH]; [destruct I|]. cbn [fold_right snd]. destruct I as [[= -> ->]|I]; [lia|]. specialize (IH I). lia.
  Qed.

  Lemma visited_found fuel : forall loc0 e loc n x, (depth e <= fuel)%nat ->
    (In (loc, n, x) (visited fuel loc0 e) <-> exists l, loc = loc0 ++ l /\ found e (l ++ [n]) x).
  Proof.
    induction fuel as [|f IH]; intros loc0 e loc n x D; [destruct e as [s l [cs|]]; cbn in D; lia|]. cbn [visited]. destruct e as [s l [cs|]]; cbn [n_children].
    - rewrite in_app_iff, in_map_iff, in_flat_map. split.
      + intros [([m c] & [= <- <- <-] & I)|([m c] & I & J)].
        * exists []. split; [now rewrite app_nil_r|]. apply (found_below _ _ _ _ c); [|constructor]. now apply (Permutation_in _ (Ha cs)).
        * apply (Permutation_in _ (Ha cs)) in I. apply IH in J as (l' & -> & F); [|pose proof (depth_child s l cs m c I); cbn [snd]; lia]. cbn [fst snd] in *.
          exists (m :: l'). split; [now rewrite <- app_assoc|]. cbn. now apply (found_below _ _ _ _ c).
      + intros (l' & -> & F). destruct l' as [|m l'].
        * left. cbn in F. inversion F as [|? ? ? ? c ? ? I Fc]; subst. inversion Fc; subst. exists (n, x). cbn [fst snd]. rewrite app_nil_r. split; [reflexivity|].
          now apply (Permutation_in _ (Permutation_sym (Ha cs))).
        * right. cbn in F. inversion F as [|? ? ? ? c ? ? I Fc]; subst. exists (m, c). split; [now apply (Permutation_in _ (Permutation_sym (Ha cs)))|].
          cbn [fst snd]. apply IH; [pose proof (depth_child s l cs m c I); lia|]. exists l'. split; [now rewrite <- app_assoc|exact Fc].
    - split; [intros []|]. intros (l' & -> & F). destruct l'; cbn in F; inversion F.
  Qed.

  Lemma nodup_app {A} (a b : list A) : NoDup a -> NoDup b -> (forall x, In x a -> ~ In x b) -> NoDup (a ++ b).
  Proof.
    induction a as [|x a IH]; intros Na Nb D; [exact Nb|]. inversion Na; subst. cbn. constructor.
    - rewrite in_app_iff. intros [I|I]; [auto|]. apply (D x); [now left|exact I].
    - apply IH; [assumption|exact Nb|]. intros y I. apply D. now right.
  Qed.
  Lemma nodup_flat_map {A B C} (k : A -> C) (g : A -> list B) l : NoDup (map k l) -> (forall p, In p l -> NoDup (g p)) ->
    (forall p q x, In p l -> In q l -> In x (g p) -> In x (g q) -> k p = k q) -> NoDup (flat_map g l).
  Proof.
    induction l as [|a l IH]; intros N G D; [constructor|]. cbn [map] in N. inversion N as [|? ? N1 N2]; subst. cbn [flat_map]. apply nodup_app.
    - apply G. now left.
    - apply IH; [exact N2| |]; intros; [apply G; now right|]. eapply D; eauto; now right.
    - intros x I J. apply in_flat_map in J as (q & Iq & J). apply N1. rewrite (D a q x); [now apply in_map|now left|now right|exact I|exact J].
  Qed.

  Lemma visited_nodup fuel : forall loc0 e, (depth e <= fuel)%nat -> tree_ok e -> NoDup (map fst (visited fuel loc0 e)).
  Proof.
    induction fuel as [|f IH]; intros loc0 e D Te; [constructor|]. cbn [visited]. destruct e as [s l [cs|]]; cbn [n_children]; [|constructor].
    inversion Te as [|? ? ? K N P Tf]; subst. assert (NoDup (map fst (arrange cs))) as Na by (apply (Permutation_NoDup (Permutation_map fst (Permutation_sym (Ha cs)))); exact N).
    assert (forall m c, In (m, c) (arrange cs) -> (depth c <= f)%nat /\ tree_ok c) as C.
    { intros m c I. apply (Permutation_in _ (Ha cs)) in I. pose proof (depth_child s l cs m c I). split; [lia|]. rewrite Forall_map in Tf. rewrite Forall_forall in Tf. exact (Tf _ I). }
    rewrite map_app, map_map. cbn [fst]. apply nodup_app.
    - clear -Na. induction (arrange cs) as [|[m c] a IHa]; [constructor|]. cbn [map fst] in *. inversion Na as [|? ? N1 N2]; subst. constructor; [|auto].
      intros I. apply N1. apply in_map_iff in I as (p & [= <-] & I). now apply in_map.
    - replace (map fst (flat_map (fun p => visited f (loc0 ++ [fst p]) (snd p)) (arrange cs))) with (flat_map (fun p => map fst (visited f (loc0 ++ [fst p]) (snd p))) (arrange cs))
        by (generalize (arrange cs); intros a; induction a as [|p a IHa]; [reflexivity|]; cbn [flat_map]; now rewrite map_app, IHa).
      apply (nodup_flat_map fst); [exact Na| |].
      + intros [m c] I. destruct (C m c I). now apply IH.
      + intros [m c] [m' c'] x I I' J J'. destruct (C m c I) as [D1 _]. destruct (C m' c' I') as [D2 _]. cbn [fst snd] in *.
        apply in_map_iff in J as ([[l1 n1] x1] & <- & J). apply in_map_iff in J' as ([[l2 n2] x2] & E & J'). cbn in E. injection E as -> ->.
        apply visited_found in J as (r1 & -> & _); [|exact D1]. apply visited_found in J' as (r2 & E & _); [|exact D2].
        rewrite <- !app_assoc in E. apply app_inv_head in E. cbn in E. congruence.
    - intros x I J. apply in_map_iff in I as ([m c] & <- & I). apply in_map_iff in J as ([[l1 n1] x1] & E & J). cbn in E. injection E as -> ->.
      apply in_flat_map in J as ([m' c'] & I' & J). destruct (C m' c' I') as [D2 _]. apply visited_found in J as (r & E & _); [|exact D2].
      apply (f_equal (@length _)) in E. rewrite !app_length in E. cbn [length] in E. lia.
  Qed.

  Fixpoint numbered (k : Z) (xs : list (str * str * node)) : list row :=
    match xs with [] => [] | (path, name, e) :: r => entry_row path name e k :: numbered (k + 1) r end.

  Lemma add_entries xs : forall rows k calls, exists rows' calls',
    fold_left add_entry xs (rows, k, calls) = (rows', k + len xs, calls') /\ concat calls' ++ rows' = concat calls ++ rows ++ numbered k xs.
  Proof.
    induction xs as [|[[p n] e] xs IH]; intros rows k calls.
    - exists rows, calls. cbn [fold_left numbered]. rewrite app_nil_r. split; [f_equal; f_equal; unfold len; cbn; lia|reflexivity].
    - cbn [fold_left numbered]. unfold add_entry at 2. assert (forall z, z + 1 + len xs = z + len ((p, n, e) :: xs)) as L by (intros; unfold len; cbn [length]; lia).
      destruct (1000 <=? len (rows ++ [entry_row p n e k])).
      + destruct (IH [] (k + 1) (calls ++ [rows ++ [entry_row p n e k]])) as (r' & c' & -> & E). exists r', c'. rewrite L. split; [reflexivity|]. rewrite E, concat_app. cbn [concat app].
        rewrite app_nil_r. now rewrite <- !app_assoc.
      + destruct (IH (rows ++ [entry_row p n e k]) (k + 1) calls) as (r' & c' & -> & E). exists r', c'. rewrite L. split; [reflexivity|]. rewrite E. now rewrite <- !app_assoc.
  Qed.

  Lemma create_rows : concat (create_index tree arrange) = numbered 0 (map as_entry (visited (depth tree) [] tree)).
  Proof.
    unfold create_index. change ([] : str) with (folder_of []) at 1. rewrite walk_visited.
    destruct (add_entries (map as_entry (visited (depth tree) [] tree)) [] 0 []) as (rows & calls & -> & E). cbn [concat app] in E. rewrite <- E.
    destruct rows; [now rewrite app_nil_r|]. rewrite concat_app. cbn [concat]. now rewrite app_nil_r.
  Qed.

  Lemma numbered_in xs : forall k r, In r (numbered k xs) <-> exists i p n e, nth_error xs i = Some (p, n, e) /\ r = entry_row p n e (k + Z.of_nat i).
  Proof.
    induction xs as [|[[p n] e] xs IH]; intros k r; cbn [numbered In].
    - split; [intros []|]. intros ([|i] & ? & ? & ? & E & _); discriminate E.
    - rewrite IH. split.
      + intros [<-|(i & p' & n' & e' & E & ->)]; [exists O, p, n, e; split; [reflexivity|now rewrite Z.add_0_r]|].
        exists (S i), p', n', e'. split; [exact E|]. f_equal. lia.
      + intros ([|i] & p' & n' & e' & E & ->); [cbn in E; injection E as <- <- <-; left; f_equal; lia|]. right. exists i, p', n', e'. split; [exact E|]. f_equal. lia.
  Qed.
  Lemma numbered_offsets xs : forall k a r b, numbered k xs = a ++ r :: b -> forall r', In r' b -> r_offsetheader r' <> r_offsetheader r.
  Proof.
    induction xs as [|[[p n] e] xs IH]; intros k a r b E r' I; [destruct a; discriminate E|]. cbn [numbered] in E. destruct a as [|y a].
    - injection E as <- <-. apply numbered_in in I as (i & p' & n' & e' & _ & ->). cbn. lia.
    - injection E as _ E. exact (IH _ _ _ _ E _ I).
  Qed.

  (** The row of the entry at a location. *)
  Definition row_of (loc : location) (x : node) (r : row) : Prop :=
    full_path r = written loc /\ ~ In slash (r_name r) /\ r_size r = st_size (n_stats x) /\ r_mtime r = st_mtime (n_stats x) /\ r_mode r = st_mode (n_stats x) /\
    r_uid r = st_uid (n_stats x) /\ r_gid r = st_gid (n_stats x) /\ r_linkname r = (match n_link x with Some t => t | None => [] end).

  Let calls := create_index tree arrange.
  Let is := map Batch calls.
  Lemma inserted_calls : inserted_rows is = concat calls.
  Proof. unfold is, inserted_rows. rewrite flat_map_concat_map, map_map. f_equal. rewrite <- map_id. apply map_ext. reflexivity. Qed.

  Lemma entry_row_of loc n x k : found tree (loc ++ [n]) x -> row_of (loc ++ [n]) x (entry_row (folder_of loc) n x k).
  Proof.
    intros F. destruct (found_good _ _ _ T F) as [Tx P]. apply Forall_app in P as [P1 P2]. inversion P2 as [|? ? Pn _]; subst. unfold row_of, entry_row. cbn.
    split; [|split; [apply Pn|]]. { unfold full_path. cbn [r_path r_name]. now rewrite written_snoc. }
    repeat (split; [reflexivity|]). assert (kind_ok x) as [_ K] by (destruct Tx; assumption). rewrite K. now destruct (n_link x).
  Qed.

  Lemma row_found r : In r (concat calls) <-> exists i loc n x, nth_error (visited (depth tree) [] tree) i = Some (loc, n, x) /\
    found tree (loc ++ [n]) x /\ r = entry_row (folder_of loc) n x (Z.of_nat i).
  Proof.
    unfold calls. rewrite create_rows, numbered_in. split.
    - intros (i & p & n & e & E & ->). rewrite nth_error_map in E. destruct (nth_error (visited (depth tree) [] tree) i) as [[[loc n'] x]|] eqn:En; [|discriminate].
      cbn in E. injection E as <- <- <-. exists i, loc, n', x. split; [exact En|]. split; [|reflexivity]. apply nth_error_In in En.
      apply visited_found in En as (l & -> & F); [exact F|lia].
    - intros (i & loc & n & x & E & F & ->). exists i, (folder_of loc), n, x. rewrite nth_error_map, E. split; [reflexivity|]. reflexivity.
  Qed.
  Lemma found_row loc n x : found tree (loc ++ [n]) x -> exists i, nth_error (visited (depth tree) [] tree) i = Some (loc, n, x) /\
    In (entry_row (folder_of loc) n x (Z.of_nat i)) (concat calls).
  Proof.
    intros F. assert (In (loc, n, x) (visited (depth tree) [] tree)) as I by (apply visited_found; [lia|]; now exists loc).
    apply In_nth_error in I as [i E]. exists i. split; [exact E|]. apply row_found. exists i, loc, n, x. auto.
  Qed.

  Definition shows (loc : location) (r : row) : Prop := exists x, found tree loc x /\ row_of loc x r.

  Lemma S_row r : In r (inserted_rows is) -> exists loc, shows loc r.
  Proof. rewrite inserted_calls. intros I. apply row_found in I as (i & loc & n & x & _ & F & ->). exists (loc ++ [n]), x. split; [exact F|]. now apply entry_row_of. Qed.
  Lemma S_path loc r : shows loc r -> In r (inserted_rows is) -> Forall proper_name loc /\ full_path r = written loc /\ ~ In slash (r_name r).
  Proof. intros (x & F & R1 & R2 & _) _. split; [apply (found_good _ _ _ T F)|]. auto. Qed.
  Lemma S_last r : In r (inserted_rows is) -> last_inserted r (inserted_rows is).
  Proof.
    rewrite inserted_calls. intros I. apply in_split in I as (a & b & E). exists a, b. split; [exact E|]. intros r' I' (_ & X).
    unfold calls in E. rewrite create_rows in E. now apply (numbered_offsets _ _ _ _ _ E r' I').
  Qed.
  Lemma S_index loc r : shows loc r -> In r (inserted_rows is) -> exists i l n x, loc = l ++ [n] /\ nth_error (visited (depth tree) [] tree) i = Some (l, n, x) /\
    found tree loc x /\ r = entry_row (folder_of l) n x (Z.of_nat i).
  Proof.
    rewrite inserted_calls. intros (x & F & R1 & _) I. apply row_found in I as (i & l & n & y & E & Fy & ->). pose proof (entry_row_of l n y (Z.of_nat i) Fy) as (R2 & _).
    assert (loc = l ++ [n]) as -> by (apply written_inj; [apply (found_good _ _ _ T F)|apply (found_good _ _ _ T Fy)|congruence]). exists i, l, n, y. auto.
  Qed.
  Lemma S_one loc r r' : shows loc r -> shows loc r' -> In r (inserted_rows is) -> In r' (inserted_rows is) -> r = r'.
  Proof.
    intros Sh Sh' I I'. destruct (S_index _ _ Sh I) as (i & l & n & x & E0 & E & F & ->). destruct (S_index _ _ Sh' I') as (i' & l' & n' & x' & E0' & E' & F' & ->).
    rewrite E0 in E0'. apply app_inj_tail in E0' as [<- <-]. rewrite (found_fun _ _ _ _ T F F'). f_equal.
    f_equal. pose proof (visited_nodup (depth tree) [] tree (le_n _) T) as N. apply (proj1 (NoDup_nth_error _) N).
    - rewrite map_length. apply nth_error_Some. congruence.
    - rewrite !nth_error_map, E, E'. reflexivity.
  Qed.
  Lemma S_parent pre n rest r : shows (pre ++ n :: rest) r -> In r (inserted_rows is) -> rest <> [] ->
    exists r', In r' (inserted_rows is) /\ shows (pre ++ [n]) r' /\ is_dir_mode (r_mode r') = true.
  Proof.
    intros (x & F & _) _ Nr. replace (pre ++ n :: rest) with ((pre ++ [n]) ++ rest) in F by now rewrite <- app_assoc.
    destruct (found_prefix tree (pre ++ [n]) rest x F) as (g & F1 & F2). destruct (found_row pre n g F1) as (i & _ & I).
    eexists. rewrite inserted_calls. split; [exact I|]. split; [exists g; split; [exact F1|now apply entry_row_of]|].
    cbn [r_mode entry_row]. destruct (found_good _ _ _ T F1) as [Tg _]. inversion F2 as [|s l fs m c l' y Im Fc]; subst; [congruence|].
    inversion Tg as [|? ? ? [K _] _ _ _]; subst. exact K.
  Qed.

  Lemma indexed_lookup now uid gid sh loc n x : any_order sh -> found tree (loc ++ [n]) x ->
    exists i, nth_error (visited (depth tree) [] tree) i = Some (loc, n, x) /\
      Index_Model.lookup now uid gid sh (build is) (written (loc ++ [n])) 0 = Some (row_to_file_info (entry_row (folder_of loc) n x (Z.of_nat i))).
  Proof.
    intros Hsh F. destruct (found_row loc n x F) as (i & E & I). exists i. split; [exact E|]. apply (tree_lookup is shows S_row S_path S_last S_one S_parent now uid gid sh (loc ++ [n])).
    - exact Hsh.
    - destruct loc; discriminate.
    - exists x. split; [exact F|]. now apply entry_row_of.
    - now rewrite inserted_calls.
  Qed.

  Lemma indexed_lookup_only now uid gid sh p i v : any_order sh -> starts_with $"../" p = false -> denotes p <> [] ->
    Index_Model.lookup now uid gid sh (build is) p v = Some i -> exists x, found tree (denotes p) x.
  Proof.
    intros Hsh Hp N L. destruct (tree_lookup_only is shows S_row S_path S_last S_parent now uid gid sh p i v Hsh Hp N L) as (r & _ & (x & F & _) & _). eauto.
  Qed.

  Lemma indexed_list sh loc s l cs : any_order sh -> found tree loc (Node s l (Some cs)) -> cs <> [] ->
    exists d, index_list sh (build is) (written loc) = Some d /\ Permutation (dkeys d) (map fst cs).
  Proof.
    intros Hsh F Ne. destruct (found_good _ _ _ T F) as [Tx P]. inversion Tx as [|? ? ? K N Pn Tf]; subst.
    pose proof (tree_list is shows S_row S_path S_last S_parent sh loc Hsh P) as L. destruct (index_list sh (build is) (written loc)) as [d|].
    - exists d. split; [reflexivity|]. destruct L as [L1 L2]. apply NoDup_Permutation; [exact L1|exact N|]. intros n. rewrite L2. split.
      + intros (r & _ & (x & Fx & _)). apply found_prefix in Fx as (f & F1 & F2). rewrite (found_fun _ _ _ _ T F1 F) in F2. inversion F2 as [|? ? ? ? c ? ? I Fc]; subst.
        apply in_map_iff. now exists (n, c).
      + intros I. apply in_map_iff in I as ([m c] & E & I). cbn in E. subst m. pose proof (found_child _ _ _ _ _ _ _ F I) as Fx. destruct (found_row loc n c Fx) as (i & _ & J).
        eexists. rewrite inserted_calls. split; [exact J|]. exists c. split; [exact Fx|]. now apply entry_row_of.
    - exfalso. destruct L as [_ L]. destruct cs as [|[n c] cs]; [congruence|]. pose proof (found_child _ _ _ _ _ n c F ltac:(now left)) as Fx. destruct (found_row loc n c Fx) as (i & _ & J).
      apply (L n (entry_row (folder_of loc) n c (Z.of_nat i))); [now rewrite inserted_calls|]. exists c. split; [exact Fx|]. now apply entry_row_of.
  Qed.

  Lemma build_numbers r r' : In r (build is) -> In r' (build is) -> r_offsetheader r = r_offsetheader r' -> r = r'.
  Proof.
    intros I I' E. apply (tree_build is shows S_row S_path S_last S_parent) in I, I'. rewrite inserted_calls in I, I'.
    apply row_found in I as (i & l & n & x & En & _ & ->). apply row_found in I' as (i' & l' & n' & x' & En' & _ & ->). cbn [r_offsetheader entry_row] in E.
    assert (i = i') as <- by lia. rewrite En in En'. now injection En' as <- <- <-.
  Qed.

  Variable shuffle : list row -> list row.
  Hypothesis Hs : any_order shuffle.

  Lemma path_in_index loc n x i : nth_error (visited (depth tree) [] tree) i = Some (loc, n, x) -> found tree (loc ++ [n]) x ->
    get_path_in_index shuffle (build is) (Z.of_nat i) = (if Z.land (st_mode (n_stats x)) 61440 =? 32768 then Ok (written (loc ++ [n])) else Err ValueError).
  Proof.
    intros En F. destruct (found_good _ _ _ T F) as [_ P]. apply Forall_app in P as [P1 P2]. inversion P2 as [|? ? Pn _]; subst.
    set (r := entry_row (folder_of loc) n x (Z.of_nat i)).
    assert (In r (build is)) as Ir. { apply (tree_build is shows S_row S_path S_last S_parent). rewrite inserted_calls. apply row_found. exists i, loc, n, x. auto. }
    unfold get_path_in_index. set (f := filter _ (build is)).
    assert (forall y, In y f -> y = r /\ Z.land (st_mode (n_stats x)) 61440 =? 32768 = true) as Only.
    { intros y I. apply filter_In in I as [I C]. apply andb_true_iff in C as [C1 C2]. apply Z.eqb_eq in C2.
      assert (y = r) as -> by (apply build_numbers; [exact I|exact Ir|exact C2]). split; [reflexivity|exact C1]. }
    destruct (Z.land (st_mode (n_stats x)) 61440 =? 32768) eqn:M.
    - assert (In r f) as Irf by (apply filter_In; split; [exact Ir|]; cbn [r_mode r_offsetheader entry_row r]; unfold r; cbn [r_mode r_offsetheader entry_row]; rewrite M, Z.eqb_refl; reflexivity).
      apply (Permutation_in _ (Permutation_sym (Hs f))) in Irf. destruct (shuffle f) as [|y t] eqn:Es; [destruct Irf|].
      assert (In y (shuffle f)) as Iy by (rewrite Es; now left). apply (Permutation_in _ (Hs f)) in Iy. destruct (Only y Iy) as [-> _]. unfold r. cbn [r_path r_name entry_row].
      rewrite written_snoc. destruct (str_eqb_spec (folder_of loc) $"/") as [E|_].
      { exfalso. unfold folder_of in E. destruct loc; [discriminate E|]. apply written_root in E; [discriminate E|exact P1]. }
      f_equal. f_equal. rewrite <- (rstrip_written loc) at 2 by exact P1. unfold folder_of. destruct loc; reflexivity.
    - assert (f = []) as E. { destruct f as [|y t] eqn:E; [reflexivity|]. destruct (Only y ltac:(rewrite <- E; subst f; rewrite E; now left)) as [_ C]. discriminate C. }
      rewrite E. pose proof (Hs []) as Z0. apply Permutation_sym, Permutation_nil in Z0. now rewrite Z0.
  Qed.
End Indexed.
