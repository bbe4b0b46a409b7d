(** Proofs about the ASAR backend. *)
From Coq Require Import Ascii String Permutation.
From Verif Require Import PyBase PyDict PyStr PyInt Path_Model Path_Spec Path_Proofs FileInfo Index_Model Index_Spec Index_Proofs Build_Proofs TreeIndex_Proofs Asar_Model Asar_Spec.
Local Open Scope Z_scope.

(** ** Trees *)
Fixpoint entries (loc : location) (e : entry) : list (location * entry) :=
  (loc, e) :: match e with Entry _ _ (Some fs) => flat_map (fun p => entries (loc ++ [fst p]) (snd p)) fs | _ => [] end.
Definition below (x : location * entry) : list (location * entry) :=
  match e_files (snd x) with Some fs => flat_map (fun p => entries (fst x ++ [fst p]) (snd p)) fs | None => [] end.
Lemma entries_below x : entries (fst x) (snd x) = x :: below x.
Proof. destruct x as [loc [o s [fs|]]]; reflexivity. Qed.

Definition kids (x : location * entry) : list (location * entry) :=
  match e_files (snd x) with Some fs => map (fun p => (fst x ++ [fst p], snd p)) fs | None => [] end.
Lemma below_kids x : below x = flat_map (fun k => k :: below k) (kids x).
Proof.
  destruct x as [loc [o s [fs|]]]; [|reflexivity]. unfold below at 1, kids. cbn [snd fst e_files]. rewrite flat_map_concat_map, flat_map_concat_map, map_map.
  f_equal. apply map_ext. intros p. exact (entries_below (loc ++ [fst p], snd p)).
Qed.

Lemma entry_induction (P : entry -> Prop) :
  (forall o s, P (Entry o s None)) -> (forall o s fs, Forall (fun p => P (snd p)) fs -> P (Entry o s (Some fs))) -> forall e, P e.
Proof.
  intros H1 H2. fix IH 1. intros [o s [fs|]]; [|apply H1]. apply H2. induction fs as [|[n c] fs IHf]; constructor; [apply IH|exact IHf].
Qed.

Definition prefix_of (loc : location) : str := $"/" ++ concat (map (fun n => slash :: n) loc).
Lemma prefix_snoc loc n : prefix_of (loc ++ [n]) = prefix_of loc ++ $"/" ++ n.
Proof. unfold prefix_of. rewrite map_app, concat_app. cbn [map concat]. rewrite app_nil_r. now rewrite app_assoc. Qed.
Lemma denotes_prefix loc : Forall proper_name loc -> denotes (prefix_of loc) = loc.
Proof.
  induction loc as [|n loc IH] using rev_ind; intros H; [reflexivity|]. apply Forall_app in H as [H1 H2]. inversion H2; subst.
  rewrite prefix_snoc. change ($"/" ++ n) with (slash :: n). rewrite denotes_child by assumption. now rewrite IH.
Qed.

Lemma means_int v z : means v z -> int_of (Some v) = Some z.
Proof. intros [x|x]; [reflexivity|apply py_int_str]. Qed.

Definition ident (s : str) : str := s.

Lemma convert_says d loc e : Forall proper_name loc -> tree_ok e -> exists r, convert_to_row ident (prefix_of loc) e d = Ok r /\ row_says d loc e r.
Proof.
  intros P T. unfold convert_to_row, ident. rewrite normpath_written, denotes_prefix by exact P.
  assert (exists a b, rsplit1 slash (written loc) = Some (a, b) /\ a ++ slash :: b = written loc /\ ~ In slash b) as (a & b & -> & Ew & Nb).
  { destruct loc as [|n l _] using rev_ind; [exists [], []; repeat split; auto|]. apply Forall_app in P as [P1 P2]. inversion P2 as [|? ? Pn _]; subst.
    exists (folder_of l), n. split; [now apply rsplit_written|]. split; [now rewrite written_snoc|]. apply Pn. }
  inversion T as [e' o s (vo & vs & -> & Mo & Ms)|e' fs -> N F Tf]; subst.
  - cbn [e_offset e_size e_files is_some andb eqb]. rewrite (means_int _ _ Mo), (means_int _ _ Ms). eexists. split; [reflexivity|].
    repeat (split; [first [exact Ew|exact Nb|reflexivity]|]). right. exists o, s. repeat split. exists vo, vs. auto.
  - cbn [e_offset e_size e_files is_some andb eqb int_of]. eexists. split; [reflexivity|].
    repeat (split; [first [exact Ew|exact Nb|reflexivity]|]). left. exists fs. repeat split.
Qed.

Definition good (x : location * entry) : Prop := Forall proper_name (fst x) /\ tree_ok (snd x).
Definition folder (x : location * entry) : bool := is_some (e_files (snd x)).
Definition named (x : location * entry) : str * entry := (prefix_of (fst x), snd x).
Definition says (d : Z) (x : location * entry) (r : row) : Prop := row_says d (fst x) (snd x) r.

Lemma kids_good x : good x -> Forall good (kids x).
Proof.
  destruct x as [loc e]. intros [P T]. cbn [fst snd] in *. unfold kids. cbn [fst snd].
  inversion T as [e' o s (vo & vs & -> & _)|e' fs -> N F Tf]; subst; [constructor|]. cbn [e_files].
  apply Forall_map. rewrite Forall_map in F, Tf. rewrite Forall_forall in *. intros p I. split; [|now apply Tf].
  apply Forall_app. split; [rewrite Forall_forall; exact P|]. constructor; [now apply F|constructor].
Qed.

Lemma convert_all_says d xs : Forall good xs -> exists rows, convert_all ident (map named xs) d = Ok rows /\ Forall2 (says d) xs rows.
Proof.
  induction 1 as [|x xs [P T] _ (rows & E & F)]; [exists []; auto|]. cbn [map named convert_all].
  destruct (convert_says d (fst x) (snd x) P T) as (r & -> & R). rewrite E. exists (r :: rows). split; [reflexivity|]. now constructor.
Qed.

Lemma kids_named x : match e_files (snd x) with Some fs => map (fun '(path, nested) => (prefix_of (fst x) ++ $"/" ++ path, nested)) fs | None => [] end = map named (kids x).
Proof.
  destruct x as [loc [o s [fs|]]]; [|reflexivity]. unfold kids. cbn [fst snd e_files]. rewrite map_map. apply map_ext. intros [n c].
  unfold named. cbn [fst snd]. now rewrite prefix_snoc.
Qed.

Lemma filter_named xs : filter (fun c => is_some (e_files (snd c))) (map named xs) = map named (filter folder xs).
Proof. induction xs as [|x xs IH]; [reflexivity|]. cbn. unfold folder at 1. destruct (is_some (e_files (snd x))); cbn; now rewrite IH. Qed.

Lemma below_file x : folder x = false -> below x = [].
Proof. unfold folder, below. now destruct (e_files (snd x)). Qed.

Fixpoint weight (xs : list (location * entry)) : nat := match xs with [] => O | x :: r => (count (snd x) + weight r)%nat end.
Lemma weight_app a b : weight (a ++ b) = (weight a + weight b)%nat.
Proof. induction a as [|x a IH]; [reflexivity|]. cbn. rewrite IH. lia. Qed.
Lemma weight_rev a : weight (rev a) = weight a.
Proof. induction a as [|x a IH]; [reflexivity|]. cbn [rev]. rewrite weight_app, IH. cbn. lia. Qed.
Lemma weight_filter f a : (weight (filter f a) <= weight a)%nat.
Proof. induction a as [|x a IH]; [cbn; lia|]. cbn. destruct (f x); cbn; lia. Qed.
Lemma weight_kids x : (weight (kids x) < count (snd x))%nat.
Proof.
  destruct x as [loc [o s [fs|]]]; [|cbn; lia]. unfold kids. cbn [snd fst e_files count]. apply Nat.lt_succ_r.
  induction fs as [|p fs IH]; [cbn; lia|]. cbn [map weight fold_right snd]. lia.
Qed.

Lemma perm_mix (xs : list (location * entry)) :
  Permutation (xs ++ flat_map below (rev (filter folder xs))) (flat_map (fun k => k :: below k) xs).
Proof.
  assert (Permutation (xs ++ flat_map below (filter folder xs)) (flat_map (fun k => k :: below k) xs)) as H.
  { induction xs as [|x xs IH]; [constructor|]. cbn [flat_map app filter]. constructor.
    destruct (folder x) eqn:E.
    - cbn [flat_map]. rewrite <- IH. rewrite !app_assoc. apply Permutation_app_tail. apply Permutation_app_comm.
    - rewrite (below_file x E). exact IH. }
  rewrite <- H. apply Permutation_app_head. apply Permutation_flat_map. symmetry. apply Permutation_rev.
Qed.

Lemma loop_indexes d fuel : forall stack infos calls, (weight stack < fuel)%nat -> Forall good stack -> Forall (fun x => folder x = true) stack ->
  exists out rows, index_loop ident fuel d (map named stack) infos calls = Ok out /\
    Permutation (concat out) (concat calls ++ infos ++ rows) /\ Forall2 (says d) (flat_map below stack) rows.
Proof.
  induction fuel as [|f IH]; intros stack infos calls W G F; [lia|]. destruct stack as [|x stack].
  - cbn [map index_loop flat_map]. exists (if match infos with [] => false | _ => true end then calls ++ [infos] else calls), []. split; [reflexivity|]. split; [|constructor].
    rewrite app_nil_r. destruct infos; [now rewrite app_nil_r|]. rewrite concat_app. cbn [concat]. now rewrite app_nil_r.
  - inversion G as [|? ? Gx Gs]; subst. inversion F as [|? ? Fx Fs]; subst. cbn [map]. unfold named at 1. cbn [index_loop].
    pose proof (kids_named x) as Ek. unfold folder in Fx. destruct (e_files (snd x)) as [fs|] eqn:Ef; [|discriminate]. rewrite Ek.
    destruct (convert_all_says d (kids x) (kids_good x Gx)) as (new & -> & Fn). rewrite filter_named, <- map_rev, <- map_app.
    set (stack' := rev (filter folder (kids x)) ++ stack).
    assert (weight stack' < f)%nat as W'.
    { unfold stack'. rewrite weight_app, weight_rev. pose proof (weight_filter folder (kids x)). pose proof (weight_kids x). cbn [weight] in W. lia. }
    assert (Forall good stack') as G'.
    { apply Forall_app. split; [|exact Gs]. apply Forall_rev. apply Forall_forall. intros y I. apply filter_In in I as [I _]. pose proof (kids_good x Gx) as K. rewrite Forall_forall in K. auto. }
    assert (Forall (fun x => folder x = true) stack') as F'.
    { apply Forall_app. split; [|exact Fs]. apply Forall_rev. apply Forall_forall. intros y I. now apply filter_In in I as [_ I]. }
    assert (forall infos' calls', Permutation (concat calls' ++ infos') (concat calls ++ infos ++ new) ->
      exists out rows, index_loop ident f d (map named stack') infos' calls' = Ok out /\
        Permutation (concat out) (concat calls ++ infos ++ rows) /\ Forall2 (says d) (flat_map below (x :: stack)) rows) as Next.
    { intros infos' calls' Pc. destruct (IH stack' infos' calls' W' G' F') as (out & rows & E & P & R).
      assert (Permutation (kids x ++ flat_map below stack') (flat_map below (x :: stack))) as Pk.
      { unfold stack'. cbn [flat_map]. rewrite flat_map_app, app_assoc. apply Permutation_app_tail. rewrite below_kids. apply perm_mix. }
      destruct (Permutation_Forall2 Pk (Forall2_app Fn R)) as (rows' & Pr & R'). exists out, rows'. split; [exact E|]. split; [|exact R'].
      rewrite P, app_assoc, Pc, <- Pr. now rewrite <- !app_assoc. }
    destruct (1000 <? len (infos ++ new)); apply Next; [|reflexivity]. rewrite concat_app. cbn [concat]. rewrite !app_nil_r. now rewrite app_assoc.
Qed.

Lemma create_index_rows d header fs : tree_ok header -> is_folder header fs ->
  exists calls rows, create_index ident header d = Ok calls /\ Permutation (concat calls) rows /\ Forall2 (says d) (entries [] header) rows.
Proof.
  intros T Hf. subst header. unfold create_index. destruct (convert_says d [] _ ltac:(constructor) T) as (r & E & R).
  match goal with |- context [convert_to_row ?a ?b ?c ?x] => replace (convert_to_row a b c x) with (Ok r) by (symmetry; exact E) end.
  destruct (loop_indexes d (S (count (Entry None None (Some fs)))) [([], Entry None None (Some fs))] [r] []) as (out & rows & E2 & P & F).
  - cbn [weight snd]. lia.
  - constructor; [|constructor]. split; [constructor|exact T].
  - constructor; [reflexivity|constructor].
  - exists out, (r :: rows). split; [exact E2|]. split; [exact P|]. change (entries [] (Entry None None (Some fs))) with (([], Entry None None (Some fs)) :: below ([], Entry None None (Some fs))). constructor; [exact R|].
    cbn [flat_map] in F. now rewrite app_nil_r in F.
Qed.

(** ** The entries are what is found *)
Lemma entries_found root : tree_ok root -> forall loc0 loc e, In (loc, e) (entries loc0 root) <-> exists l, loc = loc0 ++ l /\ found root l e.
Proof.
  induction root as [o s|o s fs IH] using entry_induction; intros T loc0 loc e.
  - cbn. split.
    + intros [[= <- <-]|[]]. exists []. split; [now rewrite app_nil_r|constructor].
    + intros (l & -> & F). inversion F as [|? ? ? ? ? ? Hf]; subst; [left; now rewrite app_nil_r|discriminate Hf].
  - inversion T as [e' ? ? (vo & vs & X & _)|e' fs' X N P Tf]; [discriminate X|]. injection X as -> -> <-.
    cbn [entries In]. rewrite in_flat_map. split.
    + intros [[= <- <-]|([n c] & I & J)]; [exists []; split; [now rewrite app_nil_r|constructor]|]. cbn [fst snd] in J.
      rewrite Forall_forall in IH. apply (IH _ I) in J as (l & -> & F).
      * exists (n :: l). split; [now rewrite <- app_assoc|]. now apply (found_below _ fs n c).
      * rewrite Forall_forall in Tf. apply Tf. apply in_map_iff. now exists (n, c).
    + intros (l & -> & F). inversion F as [|? ? n c l' ? Hf I Fc]; subst; [left; now rewrite app_nil_r|]. injection Hf as <-. right. exists (n, c). split; [exact I|].
      rewrite Forall_forall in IH. apply (IH _ I); [rewrite Forall_forall in Tf; apply Tf; apply in_map_iff; now exists (n, c)|].
      exists l'. split; [now rewrite <- app_assoc|exact Fc].
Qed.

Lemma found_good root : tree_ok root -> forall l e, found root l e -> tree_ok e /\ Forall proper_name l.
Proof.
  intros T l e F. induction F as [e|root fs n c l e -> I F IH]; [auto|].
  inversion T as [e' ? ? (vo & vs & X & _)|e' fs' X N P Tf]; [discriminate X|]. injection X as <-. subst e'.
  rewrite Forall_map in P, Tf. rewrite Forall_forall in P, Tf. destruct IH as [H1 H2]; [exact (Tf _ I)|]. split; [exact H1|]. constructor; [exact (P _ I)|exact H2].
Qed.

Lemma nodup_fst_inj (fs : list (str * entry)) n c c' : NoDup (map fst fs) -> In (n, c) fs -> In (n, c') fs -> c = c'.
Proof.
  induction fs as [|[m x] fs IH]; [intros _ []|]. cbn [map fst]. intros N. inversion N as [|? ? N1 N2]; subst. intros [E|I] [E'|I'].
  - congruence.
  - injection E as -> ->. exfalso. apply N1. apply in_map_iff. now exists (n, c').
  - injection E' as -> ->. exfalso. apply N1. apply in_map_iff. now exists (n, c).
  - now apply IH.
Qed.

Lemma found_fun root : tree_ok root -> forall l e e', found root l e -> found root l e' -> e = e'.
Proof.
  intros T l e e' F. revert e'. induction F as [e|root fs n c l e -> I F IH]; intros e' F'.
  - now inversion F'.
  - inversion T as [x ? ? (vo & vs & X & _)|x fs' X N P Tf]; [discriminate X|]. injection X as <-.
    inversion F' as [|? ? n' c' l' ? Hf I' Fc]; subst.
 injection Hf as <-. rewrite (nodup_fst_inj fs n c' c N I' I) in Fc.
    apply IH; [|exact Fc]. rewrite Forall_forall in Tf. apply Tf. apply in_map_iff. now exists (n, c).
Qed.

Lemma found_prefix root pre : forall l e, found root (pre ++ l) e -> exists f, found root pre f /\ found f l e.
Proof.
  revert root. induction pre as [|n pre IH]; intros root l e F; [exists root; split; [constructor|exact F]|].
  cbn in F. inversion F as [|? fs n' c l' ? Hf I Fc]; subst. destruct (IH c l e Fc) as (f & F1 & F2). exists f. split; [|exact F2]. now apply (found_below _ fs n c).
Qed.
Lemma found_join root pre f l e : found root pre f -> found f l e -> found root (pre ++ l) e.
Proof. intros F1 F2. induction F1 as [f|root fs n c pre f Hf I F IH]; [exact F2|]. cbn. now apply (found_below _ fs n c); auto. Qed.

Lemma entries_nodup root : tree_ok root -> forall loc0, NoDup (map fst (entries loc0 root)).
Proof.
  induction root as [o s|o s fs IH] using entry_induction; intros T loc0; [cbn; constructor; [intros []|constructor]|].
  assert (forall loc e, In (loc, e) (flat_map (fun p => entries (loc0 ++ [fst p]) (snd p)) fs) -> exists n l, loc = loc0 ++ n :: l /\ In n (map fst fs)) as Start.
  { intros loc e I. apply in_flat_map in I as ([n c] & I & J). cbn [fst snd] in J. inversion T as [x ? ? (vo & vs & X & _)|x fs' X N P Tf]; [discriminate X|]. injection X as -> -> <-.
    apply (entries_found c) in J as (l & -> & _); [|rewrite Forall_forall in Tf; apply Tf; apply in_map_iff; now exists (n, c)].
    exists n, l. split; [now rewrite <- app_assoc|]. apply in_map_iff. now exists (n, c). }
  cbn [entries map fst]. constructor.
  { intros I. apply in_map_iff in I as ([loc e] & E & I). cbn in E. apply Start in I as (n & l & -> & _). apply (f_equal (@length str)) in E. rewrite app_length in E. cbn in E. lia. }
  inversion T as [x ? ? (vo & vs & X & _)|x fs' X N P Tf]; [discriminate X|]. injection X as -> -> <-.
  clear T P. repeat match goal with H : is_folder x _ |- _ => clear H end.
  revert N Tf IH Start. induction fs as [|[n c] fs IHf]; intros N Tf IH Start; [constructor|].
  cbn [map fst snd] in N, Tf. inversion N as [|? ? N1 N2]; subst. inversion Tf as [|? ? T1 T2]; subst. inversion IH as [|? ? I1 I2]; subst. cbn [snd] in I1.
  cbn [flat_map]. rewrite map_app. cbn [fst snd].
  assert (forall (a b : list location), NoDup a -> NoDup b -> (forall x, In x a -> ~ In x b) -> NoDup (a ++ b)) as NA.
  { clear. induction a as [|x a IH]; intros b Na Nb D; [exact Nb|]. inversion Na; subst. cbn. constructor.
    - intros I. apply in_app_iff in I as [I|I]; [contradiction|]. exact (D x (or_introl eq_refl) I).
    - apply IH; auto. intros y I. apply D. now right. }
  apply NA.
  - now apply I1.
  - apply IHf; [exact N2|exact T2|exact I2|]. intros loc e I. destruct (Start loc e) as (m & l & -> & Im); [cbn [flat_map]; apply in_app_iff; now right|].
    exists m, l. split; [reflexivity|]. apply in_flat_map in I as ([n' c'] & I' & J). cbn [fst snd] in J.
    rewrite Forall_forall in T2. apply (entries_found c') in J as (l' & E & _); [|apply T2; apply in_map_iff; now exists (n', c')].
    rewrite <- app_assoc in E. apply app_inv_head in E. injection E as -> _. apply in_map_iff. now exists (n', c').
  - intros loc I J. apply in_map_iff in I as ([loc1 e1] & <- & I). apply in_map_iff in J as ([loc2 e2] & E2 & J). cbn [fst] in *. subst loc2.
    apply (entries_found c T1) in I as (l & -> & _). apply in_flat_map in J as ([n' c'] & I' & J). cbn [fst snd] in J.
    rewrite Forall_forall in T2. apply (entries_found c') in J as (l' & E & _); [|apply T2; apply in_map_iff; now exists (n', c')].
    rewrite <- !app_assoc in E. apply app_inv_head in E. injection E as -> _. apply N1. apply in_map_iff. now exists (n', c').
Qed.

(** ** Rows *)
Section Rows.
  Variables (d : Z) (header : entry) (fs : list (str * entry)) (calls : list (list row)).
  Hypothesis T : tree_ok header.
  Hypothesis Hf : is_folder header fs.
  Hypothesis Hc : create_index ident header d = Ok calls.

  Lemma rows_split : exists rows, Permutation (concat calls) rows /\ Forall2 (says d) (entries [] header) rows.
  Proof.
    destruct (create_index_rows d header fs T Hf) as (c & rows & E & P & F). assert (c = calls) as -> by congruence. eauto.
  Qed.

  Lemma forall2_in_l {A B} (R : A -> B -> Prop) l l' x : Forall2 R l l' -> In x l -> exists y, In y l' /\ R x y.
  Proof. induction 1 as [|a b l l' H _ IH]; [intros []|]. intros [->|I]; [exists b; split; [now left|exact H]|]. destruct (IH I) as (y & I' & R'). exists y. split; [now right|exact R']. Qed.
  Lemma forall2_in_r {A B} (R : A -> B -> Prop) l l' y : Forall2 R l l' -> In y l' -> exists x, In x l /\ R x y.
  Proof. induction 1 as [|a b l l' H _ IH]; [intros []|]. intros [->|I]; [exists a; split; [now left|exact H]|]. destruct (IH I) as (x & I' & R'). exists x. split; [now right|exact R']. Qed.

  Lemma row_found r : In r (concat calls) -> exists loc e, found header loc e /\ row_says d loc e r.
  Proof.
    intros I. destruct rows_split as (rows & P & F). apply (Permutation_in _ P) in I. destruct (forall2_in_r _ _ _ _ F I) as ([loc e] & Ie & R).
    exists loc, e. split; [|exact R]. apply (entries_found header T) in Ie as (l & -> & Fo). exact Fo.
  Qed.

  Lemma filter_one (xs : list (location * entry)) rows loc e : NoDup (map fst xs) -> (forall x, In x xs -> Forall proper_name (fst x)) ->
    Forall2 (says d) xs rows -> In (loc, e) xs ->
    exists r, filter (fun r => str_eqb (full_path r) (written loc)) rows = [r] /\ row_says d loc e r.
  Proof.
    intros N G F. induction F as [|x r xs rows S F IH]; [intros []|]. cbn [map] in N. inversion N as [|? ? N1 N2]; subst. intros [->|I].
    - exists r. split; [|exact S]. cbn [filter]. destruct S as (S1 & _). cbn [fst] in S1. rewrite S1, str_eqb_refl. f_equal.
      assert (forall y, In y rows -> str_eqb (full_path y) (written loc) = false) as Z0.
      { intros y Iy. destruct (forall2_in_r _ _ _ _ F Iy) as ([loc' e'] & Ix & (S2 & _)). cbn [fst] in S2. rewrite S2. apply str_eqb_neq. intros E.
        apply written_inj in E; [|apply (G (loc', e')); now right|apply (G (loc, e)); now left]. subst loc'. apply N1. apply in_map_iff. now exists (loc, e'). }
      clear -Z0. induction rows as [|y rows IH]; [reflexivity|]. cbn [filter]. rewrite (Z0 y) by now left. apply IH. intros z I. apply Z0. now right.
    - destruct (IH N2 ltac:(intros y Iy; apply G; now right) I) as (r' & E & R). exists r'. split; [|exact R]. cbn [filter].
      destruct S as (S1 & _). rewrite S1. destruct (str_eqb_spec (written (fst x)) (written loc)) as [X|_]; [|exact E]. exfalso.
      apply written_inj in X; [|apply G; now left|apply (G (loc, e)); now right]. apply N1. rewrite X. apply in_map_iff. now exists (loc, e).
  Qed.

  Lemma found_row loc e : found header loc e ->
    exists r, filter (fun r => str_eqb (full_path r) (written loc)) (concat calls) = [r] /\ row_says d loc e r.
  Proof.
    intros Fo. destruct rows_split as (rows & P & F).
    assert (forall x, In x (entries [] header) -> Forall proper_name (fst x)) as G.
    { intros [l x] I. apply (entries_found header T) in I as (l' & -> & F'). now apply (found_good header T l' x). }
    assert (In (loc, e) (entries [] header)) as I by (apply (entries_found header T); now exists loc).
    destruct (filter_one _ _ loc e (entries_nodup header T []) G F I) as (r & E & R). exists r. split; [|exact R].
    pose proof (perm_filter (fun r => str_eqb (full_path r) (written loc)) _ _ P) as Pf. rewrite E in Pf. symmetry in Pf. now apply Permutation_length_1_inv in Pf.
  Qed.

  Definition shows (loc : location) (r : row) : Prop := exists e, found header loc e /\ row_says d loc e r.
  Lemma inserted_calls : inserted_rows (map Batch calls) = concat calls.
  Proof. unfold inserted_rows. rewrite flat_map_concat_map, map_map. f_equal. rewrite <- map_id. apply map_ext. reflexivity. Qed.

  Lemma shows_one loc r r' : shows loc r -> shows loc r' -> In r (concat calls) -> In r' (concat calls) -> r = r'.
  Proof.
    intros (e & Fo & R1 & _) (e' & _ & R2 & _) I I'. destruct (found_row loc e Fo) as (r0 & E & _).
    assert (forall x, In x (concat calls) -> full_path x = written loc -> x = r0) as U.
    { intros x Ix Ex. assert (In x (filter (fun r => str_eqb (full_path r) (written loc)) (concat calls))) as J by (apply filter_In; split; [exact Ix|]; rewrite Ex; apply str_eqb_refl).
      rewrite E in J. destruct J as [->|[]]. reflexivity. }
    rewrite (U r I R1), (U r' I' R2). reflexivity.
  Qed.

  Lemma shows_last r : In r (concat calls) -> last_inserted r (concat calls).
  Proof.
    intros I. destruct (row_found r I) as (loc & e & Fo & R). destruct (found_row loc e Fo) as (r0 & E & _).
    apply in_split in I as (a & b & Eab). exists a, b. split; [exact Eab|]. intros r' I' (X & _). destruct R as (R1 & _). rewrite R1 in X.
    rewrite Eab, filter_app in E. cbn [filter] in E. rewrite R1, str_eqb_refl in E.
    assert (In r' (filter (fun r => str_eqb (full_path r) (written loc)) b)) as J by (apply filter_In; split; [exact I'|]; rewrite X; apply str_eqb_refl).
    apply (f_equal (@length row)) in E. rewrite app_length in E. cbn [length] in E. destruct (filter (fun r => str_eqb (full_path r) (written loc)) b); [destruct J|]. cbn [length] in E. lia.
  Qed.

  Let is := map Batch calls.
  Lemma S_row r : In r (inserted_rows is) -> exists loc, shows loc r.
  Proof. unfold is. rewrite inserted_calls. intros I. destruct (row_found r I) as (loc & e & F & R). exists loc, e. auto. Qed.
  Lemma S_path loc r : shows loc r -> In r (inserted_rows is) -> Forall proper_name loc /\ full_path r = written loc /\ ~ In slash (r_name r).
  Proof. intros (e & F & R1 & R2 & _) _. split; [apply (found_good header T loc e F)|]. auto. Qed.
  Lemma S_parent pre n rest r : shows (pre ++ n :: rest) r -> In r (inserted_rows is) -> rest <> [] ->
    exists r', In r' (inserted_rows is) /\ shows (pre ++ [n]) r' /\ is_dir_mode (r_mode r') = true.
  Proof.
    intros (e & F & _) _ Nr. replace (pre ++ n :: rest) with ((pre ++ [n]) ++ rest) in F by now rewrite <- app_assoc.
    destruct (found_prefix header (pre ++ [n]) rest e F) as (g & F1 & F2). destruct (found_row _ _ F1) as (r' & E & R).
    exists r'. unfold is. rewrite inserted_calls. split.
    - assert (In r' [r']) as J by now left. rewrite <- E in J. now apply filter_In in J as [J _].
    - split; [exists g; auto|]. destruct R as (_ & _ & _ & _ & _ & _ & _ & [(fs' & _ & -> & _)|(o & s & (vo & vs & X & _) & _)]); [reflexivity|]. exfalso.
      inversion F2 as [|? ? ? ? ? ? Hg]; subst; [now apply Nr|]. discriminate Hg.
  Qed.
  Lemma S_last r : In r (inserted_rows is) -> last_inserted r (inserted_rows is).
  Proof. unfold is. rewrite inserted_calls. apply shows_last. Qed.
  Lemma S_one loc r r' : shows loc r -> shows loc r' -> In r (inserted_rows is) -> In r' (inserted_rows is) -> r = r'.
  Proof. unfold is. rewrite inserted_calls. apply shows_one. Qed.

  Lemma row_shown loc e r : row_says d loc e r -> shown d e (row_to_file_info r).
  Proof.
    intros (_ & _ & _ & _ & _ & _ & _ & [(fs' & F & M & Z0)|(o & s & F & M & Z0 & O)]).
    - left. exists fs'. unfold row_to_file_info. cbn [fi_mode fi_size]. rewrite M. auto.
    - right. exists o, s. eexists. unfold row_to_file_info. cbn [fi_mode fi_size fi_userdata]. rewrite M. repeat (split; [first [exact F|exact Z0|reflexivity]|]). exact O.
  Qed.

  Lemma asar_lookup now uid gid sh loc e : any_order sh -> loc <> [] -> found header loc e ->
    exists i, lookup now uid gid sh (build is) (written loc) 0 = Some i /\ shown d e i.
  Proof.
    intros Hsh N Fo. destruct (found_row loc e Fo) as (r & E & R). assert (In r (inserted_rows is)) as I.
    { unfold is. rewrite inserted_calls. assert (In r [r]) as J by now left. rewrite <- E in J. now apply filter_In in J as [J _]. }
    exists (row_to_file_info r). split; [|now apply row_shown in R].
    apply (tree_lookup is shows S_row S_path S_last S_one S_parent); auto. now exists e.
  Qed.

  Lemma asar_lookup_only now uid gid sh p v i : any_order sh -> starts_with $"../" p = false -> denotes p <> [] ->
    lookup now uid gid sh (build is) p v = Some i -> exists e, found header (denotes p) e /\ shown d e i.
  Proof.
    intros Hsh Hp N L. destruct (tree_lookup_only is shows S_row S_path S_last S_parent now uid gid sh p i v Hsh Hp N L) as (r & I & (e & F & R) & ->).
    exists e. split; [exact F|]. now apply row_shown in R.
  Qed.

  Lemma asar_list sh loc fs' : any_order sh -> found header loc (Entry None None (Some fs')) ->
    (loc = [] \/ fs' <> []) -> exists dir, index_list sh (build is) (written loc) = Some dir /\ Permutation (dkeys dir) (map fst fs').
  Proof.
    intros Hsh F Ne. destruct (found_good header T loc _ F) as [Tf P]. pose proof (tree_list is shows S_row S_path S_last S_parent sh loc Hsh P) as L.
    assert (forall n, (exists r, In r (inserted_rows is) /\ shows (loc ++ [n]) r) <-> In n (map fst fs')) as K.
    { intros n. split.
      - intros (r & _ & e & Fn & _). destruct (found_prefix header loc [n] e Fn) as (g & F1 & F2).
        rewrite (found_fun header T loc _ _ F1 F) in F2. inversion F2 as [|? ? n' c l' ? Hg I _]; subst. injection Hg as <-. apply in_map_iff. now exists (n, c).
      - intros I. apply in_map_iff in I as ([n' c] & <- & I). cbn [fst].
        assert (found header (loc ++ [n']) c) as Fn by (apply (found_join header loc _ _ _ F), (found_below _ fs' n' c); [reflexivity|exact I|constructor]).
        destruct (found_row _ _ Fn) as (r & E & R). exists r. unfold is. rewrite inserted_calls. split; [|now exists c].
        assert (In r [r]) as J by now left. rewrite <- E in J. now apply filter_In in J as [J _]. }
    destruct (index_list sh (build is) (written loc)) as [dir|].
    - exists dir. split; [reflexivity|]. destruct L as [L1 L2]. apply NoDup_Permutation; [exact L1| |].
      + inversion Tf as [x ? ? (vo & vs & X & _)|x fs0 X N _ _]; [discriminate X|]. injection X as <-. exact N.
      + intros n. rewrite L2. apply K.
    - exfalso. destruct L as [L1 L2]. destruct Ne as [->|Ne].
      + destruct (found_row [] header (found_here header)) as (r & E & R). assert (In r [r]) as J by now left. rewrite <- E in J. apply filter_In in J as [J _].
        apply (L1 eq_refl r); [unfold is; now rewrite inserted_calls|]. exists header. split; [constructor|exact R].
      + destruct fs' as [|[n c] fs']; [now apply Ne|]. destruct (proj2 (K n) (or_introl eq_refl)) as (r & I & S). exact (L2 n r I S).
  Qed.
End Rows.

(** ** The header *)
Lemma u32_le32 n : 0 <= n < 4294967296 -> u32 (le32 n) = n.
Proof.
  intros H. unfold le32, u32. cbn [map fold_right].
  assert (forall k, Z.of_nat (nat_of_ascii (ascii_of_nat (Z.to_nat (k mod 256)))) = k mod 256) as B.
  { intros k. pose proof (Z.mod_pos_bound k 256). rewrite nat_ascii_embedding by lia. lia. }
  rewrite !B. change (256 ^ 0) with 1. change (256 ^ 1) with 256. change (256 ^ 2) with 65536. change (256 ^ 3) with 16777216.
  rewrite Z.div_1_r.
  pose proof (Z.div_mod n 256 ltac:(lia)). pose proof (Z.div_mod (n / 256) 256 ltac:(lia)). pose proof (Z.div_mod (n / 256 / 256) 256 ltac:(lia)).
  rewrite (Z.div_div n 256 256) in * by lia. change (256 * 256) with 65536 in *. rewrite (Z.div_div n 65536 256) in * by lia. change (65536 * 256) with 16777216 in *.
  assert (n / 16777216 mod 256 = n / 16777216) as E.
  { apply Z.mod_small. split; [apply Z.div_pos; lia|]. apply Z.div_lt_upper_bound; lia. }
  rewrite E. lia.
Qed.

Lemma u32_range s : 0 <= u32 s < 256 ^ len s.
Proof.
  induction s as [|c s IH]; [split; reflexivity || discriminate|]. cbn [u32 fold_right]. fold (u32 s). rewrite len_cons. rewrite Z.pow_add_r by (pose proof (len_nonneg s); lia).
  pose proof (nat_ascii_bounded c). change (256 ^ 1) with 256. lia.
Qed.

Lemma len_le32 n : len (le32 n) = 4. Proof. reflexivity. Qed.

Lemma byte_back c : ascii_of_nat (Z.to_nat (Z.of_nat (nat_of_ascii c))) = c.
Proof. rewrite Nat2Z.id. apply ascii_nat_embedding. Qed.

Lemma le32_u32 s : len s = 4 -> le32 (u32 s) = s.
Proof.
  intros L. destruct s as [|a [|b [|c [|e [|x s]]]]]; try discriminate L; [|exfalso; rewrite !len_cons in L; pose proof (len_nonneg s); lia].
  unfold le32, u32. cbn [fold_right map]. set (A := Z.of_nat (nat_of_ascii a)). set (B := Z.of_nat (nat_of_ascii b)). set (C := Z.of_nat (nat_of_ascii c)). set (E := Z.of_nat (nat_of_ascii e)).
  assert (0 <= A < 256) as HA by (unfold A; pose proof (nat_ascii_bounded a); lia). assert (0 <= B < 256) as HB by (unfold B; pose proof (nat_ascii_bounded b); lia).
  assert (0 <= C < 256) as HC by (unfold C; pose proof (nat_ascii_bounded c); lia). assert (0 <= E < 256) as HE by (unfold E; pose proof (nat_ascii_bounded e); lia).
  assert (forall x y, 0 <= x < 256 -> (x + 256 * y) / 256 = y /\ (x + 256 * y) mod 256 = x) as D.
  { intros x y Hx. replace (x + 256 * y) with (y * 256 + x) by lia. split; [rewrite Z.div_add_l, Z.div_small by lia; lia|rewrite Z.add_comm, Z.mod_add, Z.mod_small by lia; lia]. }
  change (256 ^ 0) with 1. change (256 ^ 1) with 256. change (256 ^ 2) with (256 * 256). change (256 ^ 3) with (256 * 256 * 256). rewrite Z.div_1_r.
  rewrite <- !Z.div_div by lia. replace (E + 256 * 0) with E by lia. 
  rewrite (proj2 (D A _ HA)), !(proj1 (D A _ HA)), (proj2 (D B _ HB)), !(proj1 (D B _ HB)), (proj2 (D C _ HC)), (proj1 (D C _ HC)).
  rewrite (Z.mod_small E) by lia. unfold A, B, C, E. now rewrite !byte_back.
Qed.

Lemma padding_spec n : n + (4 - n mod 4) mod 4 = padded n.
Proof. unfold padded. Z.div_mod_to_equations. lia. Qed.

Lemma zslice_step (a b : str) o n : len a <= o -> 0 <= o -> zslice (a ++ b) o n = zslice b (o - len a) n.
Proof. intros H _. unfold zslice. now rewrite zskip_app_ge by exact H. Qed.
Lemma zslice_head (a b : str) n : len a = n -> zslice (a ++ b) 0 n = a.
Proof. intros <-. unfold zslice. rewrite zskip_0. unfold ztake, len. rewrite Nat2Z.id. rewrite firstn_app, Nat.sub_diag, firstn_all. cbn. apply app_nil_r. Qed.
Lemma zslice_whole (s : str) n : len s = n -> zslice s 0 n = s.
Proof. intros H. rewrite <- (app_nil_r s) at 1. now apply zslice_head. Qed.

Lemma header_found json padding contents : len json + 11 < 4294967296 -> len padding = padded (len json) - len json ->
  find_asar_header (asar_file json padding contents) = Ok (16, len json, 16 + padded (len json)).
Proof.
  intros L P. unfold find_asar_header, asar_file. pose proof (len_nonneg json).
  assert (len json <= padded (len json) <= len json + 3) as R by (unfold padded; Z.div_mod_to_equations; lia).
  set (A := le32 4). set (B := le32 (padded (len json) + 8)). set (C := le32 (padded (len json) + 4)). set (D := le32 (len json)). set (rest := json ++ padding ++ contents).
  assert (zslice (A ++ B ++ C ++ D ++ rest) 0 16 = A ++ B ++ C ++ D) as ->.
  { replace (A ++ B ++ C ++ D ++ rest) with ((A ++ B ++ C ++ D) ++ rest) by (now rewrite <- !app_assoc). apply zslice_head. reflexivity. }
  change (len (A ++ B ++ C ++ D) =? 16) with true. cbn [negb].
  rewrite (zslice_head A) by reflexivity. rewrite (zslice_step A _ 4) by (unfold A; rewrite ?len_le32; lia). change (4 - len A) with 0. rewrite (zslice_head B) by reflexivity.
  rewrite (zslice_step A _ 8) by (unfold A; rewrite ?len_le32; lia). change (8 - len A) with 4. rewrite (zslice_step B _ 4) by (unfold B; rewrite ?len_le32; lia). change (4 - len B) with 0. rewrite (zslice_head C) by reflexivity.
  rewrite (zslice_step A _ 12) by (unfold A; rewrite ?len_le32; lia). change (12 - len A) with 8. rewrite (zslice_step B _ 8) by (unfold B; rewrite ?len_le32; lia). change (8 - len B) with 4.
  rewrite (zslice_step C _ 4) by (unfold C; rewrite ?len_le32; lia). change (4 - len C) with 0. rewrite (zslice_whole D) by reflexivity.
  unfold A, B, C, D. rewrite !u32_le32 by lia. change (negb (4 =? 4)) with false. cbn iota. replace (padded (len json) + 4 + 4) with (padded (len json) + 8) by lia. rewrite Z.eqb_refl. cbn [negb].
  rewrite padding_spec, Z.eqb_refl. cbn [negb]. rewrite <- Z.add_assoc, padding_spec. reflexivity.
Qed.

Lemma header_sound data h n d : find_asar_header data = Ok (h, n, d) ->
  h = 16 /\ 0 <= n < 4294967296 /\ d = 16 + padded n /\
  zslice data 0 16 = le32 4 ++ le32 (padded n + 8) ++ le32 (padded n + 4) ++ le32 n.
Proof.
  unfold find_asar_header. set (b := zslice data 0 16). destruct (Z.eqb_spec (len b) 16) as [L|]; [|discriminate]. cbn [negb].
  set (A := zslice b 0 4). set (B := zslice b 4 4). set (C := zslice b 8 4). set (D := zslice b 12 4).
  destruct (Z.eqb_spec (u32 A) 4) as [E1|]; [|discriminate]. cbn [negb]. destruct (Z.eqb_spec (u32 B) (u32 C + 4)) as [E2|]; [|discriminate]. cbn [negb].
  rewrite padding_spec. destruct (Z.eqb_spec (u32 C) (padded (u32 D) + 4)) as [E3|]; [|discriminate]. cbn [negb]. intros E.
  assert (h = 16 /\ n = u32 D /\ d = 16 + u32 D + (4 - u32 D mod 4) mod 4) as (-> & -> & ->) by (repeat split; congruence). clear E.
  assert (len A = 4 /\ len B = 4 /\ len C = 4 /\ len D = 4) as (LA & LB & LC & LD) by (unfold A, B, C, D; rewrite !len_zslice by lia; lia).
  split; [reflexivity|]. split; [pose proof (u32_range D) as R; rewrite LD in R; exact R|]. split; [pose proof (padding_spec (u32 D)); lia|].
  rewrite <- E3. replace (padded (u32 D) + 8) with (u32 B) by lia. rewrite <- E1. rewrite !le32_u32 by assumption.
  unfold A, B, C, D, zslice, zskip, ztake. change (Z.to_nat 0) with 0%nat. change (Z.to_nat 4) with 4%nat. change (Z.to_nat 8) with 8%nat. change (Z.to_nat 12) with 12%nat.
  clear -L. unfold len in L. assert (length b = 16)%nat as L' by lia. clear L. revert L'. generalize b. clear b. intros b L.
  do 16 (destruct b as [|? b]; [discriminate L|]). destruct b; [reflexivity|discriminate L].
Qed.

(** ** What is rejected *)
Lemma convert_kind t p e d r : convert_to_row t p e d = Ok r -> one_kind e.
Proof.
  unfold convert_to_row. destruct (rsplit1 _ _) as [[a b]|]; [|discriminate]. destruct e as [o s f]. cbn [e_offset e_size e_files].
  destruct o as [o|], s as [s|], f as [f|]; cbn [is_some andb eqb]; try discriminate; intros _; unfold one_kind; eauto 8.
Qed.
Lemma convert_all_kind t d cs : forall rows, convert_all t cs d = Ok rows -> Forall (fun c => one_kind (snd c)) cs.
Proof.
  induction cs as [|[p e] cs IH]; intros rows; [constructor|]. cbn [convert_all]. destruct (convert_to_row t p e d) eqn:E; [|discriminate].
  destruct (convert_all t cs d) as [l|] eqn:E2; [|discriminate]. intros _. constructor; [exact (convert_kind _ _ _ _ _ E)|exact (IH l eq_refl)].
Qed.
Lemma loop_kinds t d fuel : forall stack infos calls out, index_loop t fuel d stack infos calls = Ok out ->
  forall x e, In x stack -> one_kind (snd x) -> inside (snd x) e -> one_kind e.
Proof.
  induction fuel as [|f IH]; intros stack infos calls out; [discriminate|]. cbn [index_loop]. destruct stack as [|[p top] stack]; [intros _ x e []|].
  destruct (e_files top) as [fs|] eqn:Ef; [|discriminate]. set (children := map _ fs). destruct (convert_all t children d) as [rows|] eqn:Ec; [|discriminate].
  pose proof (convert_all_kind t d children rows Ec) as K. set (stack' := rev (filter _ children) ++ stack).
  assert (forall infos' calls', index_loop t f d stack' infos' calls' = Ok out -> forall x e, In x ((p, top) :: stack) -> one_kind (snd x) -> inside (snd x) e -> one_kind e) as Next.
  { intros infos' calls' E x e I Kx Ix. pose proof (IH _ _ _ _ E) as H. destruct I as [<-|I]; [|apply (H x e); [apply in_or_app; now right|exact Kx|exact Ix]].
    cbn [snd] in *. inversion Ix as [|? o s fs' n c ? Er Ic Ic2]; subst; [exact Kx|]. cbn in Ef. injection Ef as ->.
    assert (In (p ++ $"/" ++ n, c) children) as Ik by (apply in_map_iff; now exists (n, c)). rewrite Forall_forall in K. pose proof (K _ Ik) as Kc. cbn [snd] in Kc.
    destruct (e_files c) as [g|] eqn:Eg.
    - apply (H (p ++ $"/" ++ n, c) e); [|exact Kc|exact Ic2]. apply in_or_app. left. apply in_rev. rewrite rev_involutive. apply filter_In. split; [exact Ik|]. cbn [snd]. now rewrite Eg.
    - inversion Ic2 as [|? ? ? ? ? ? ? Er]; subst; [exact Kc|]. discriminate Eg. }
  destruct (1000 <? len (infos ++ rows)); apply Next.
Qed.
Lemma create_kinds t header d calls : create_index t header d = Ok calls -> forall e, inside header e -> one_kind e.
Proof.
  unfold create_index. destruct (convert_to_row t $"/" header d) as [r|] eqn:E; [|discriminate]. intros L e I.
  apply (loop_kinds _ _ _ _ _ _ _ L ($"/", header) e); [now left|exact (convert_kind _ _ _ _ _ E)|exact I].
Qed.

(** ** Opening *)
Lemma open_file load json padding contents header : len json + 11 < 4294967296 -> len padding = padded (len json) - len json ->
  load json = Some header -> open_asar load ident (asar_file json padding contents) = create_index ident header (16 + padded (len json)).
Proof.
  intros L P Lo. unfold open_asar. rewrite header_found by assumption.
  assert (forall k, zslice (asar_file json padding contents) 16 k = zslice (json ++ padding ++ contents) 0 k) as Z16.
  { intros k. unfold asar_file. rewrite !app_assoc. rewrite <- (app_assoc _ json), <- (app_assoc _ (json ++ _)). rewrite zslice_step; [|vm_compute; discriminate|lia].
    rewrite <- app_assoc. reflexivity. }
  rewrite Z16, zslice_head by reflexivity. rewrite Lo. pose proof (len_nonneg json). pose proof (len_nonneg padding). pose proof (len_nonneg contents).
  assert (len (asar_file json padding contents) = 16 + len json + len padding + len contents) as La.
  { unfold asar_file. rewrite !len_app, !len_le32. lia. }
  assert (len (zslice (asar_file json padding contents) (16 + len json - 1) 1) = 1) as L1 by (rewrite len_zslice by lia; lia).
  destruct (zslice (asar_file json padding contents) (16 + len json - 1) 1); [discriminate L1|reflexivity].
Qed.

Lemma contents_at json padding contents o s : len padding = padded (len json) - len json -> 0 <= o ->
  zslice (asar_file json padding contents) (16 + padded (len json) + o) s = zslice contents o s.
Proof.
  intros P Ho. unfold asar_file. rewrite !app_assoc. pose proof (len_nonneg json). pose proof (len_nonneg padding).
  rewrite zslice_step; rewrite ?len_app, ?len_le32; [|lia|lia]. f_equal. lia.
Qed.
