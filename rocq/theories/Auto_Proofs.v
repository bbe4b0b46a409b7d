From Coq Require Import Ascii String.
From Verif Require Import PyBase PyDict PyStr Path_Model Path_Spec Path_Proofs FileInfo Union_Model Union_Spec Union_Proofs Auto_Model Auto_Spec.
Local Open Scope Z_scope.

Notation mget := (dget str_eqb).
Notation mset := (dset str_eqb).

Lemma mem_get {V} (t : list (str * V)) k : dmem str_eqb t k = true <-> exists i, mget t k = Some i.
Proof. unfold dmem. destruct (mget t k); split; eauto; try discriminate. intros [i H]; discriminate. Qed.

Section Find.
  Context {U : Type}.
  Implicit Types (t : mtable U).

  Lemma find_loop_spec t path loc : Forall proper_name loc -> path = written loc -> (exists i, mounted_at t [] i) ->
    forall l right fuel, loc = l ++ right -> l <> [] -> (length (written l) < fuel)%nat ->
    (forall a b, loc = a ++ b -> dmem str_eqb t (written a) = true -> (length a <= length l)%nat) ->
    exists a b i, find_loop fuel t path (written l) right = (written a, written b) /\ innermost t loc a b i.
  Proof.
    intros Hp Hpath [i0 Hroot] l. induction l as [|n l IH] using rev_ind; intros right fuel E Hne Hf Hlong; [congruence|].
    destruct fuel as [|fuel]; [lia|]. cbn [find_loop]. subst loc. rewrite <- app_assoc in Hp. apply Forall_app in Hp as [Hl Hr]. cbn [app] in Hr. inversion Hr as [|? ? Hn Hr']; subst.
    rewrite rsplit_written by assumption. destruct (dmem str_eqb t (written (l ++ [n]))) eqn:Em.
    - apply mem_get in Em as [i Hi]. exists (l ++ [n]), right, i. split; [reflexivity|]. split; [reflexivity|]. split; [exact Hi|].
      intros a' b' i' E' H'. apply (Hlong a' b' E'). apply mem_get. now exists i'.
    - destruct l as [|x l].
      + cbn [app] in *. unfold folder_of. destruct fuel as [|fuel].
        { exfalso. unfold written in Hf. cbn [join length] in Hf. lia. }
        cbn [find_loop rsplit1]. exists [], (n :: right), i0. split; [reflexivity|]. split; [reflexivity|]. split; [assumption|].
        intros a' b' i' E' H'. assert (Hm : dmem str_eqb t (written a') = true) by (apply mem_get; now exists i').
        pose proof (Hlong a' b' E' Hm) as Hlen. destruct a' as [|y [|z a']]; cbn in *; [lia| |lia]. injection E' as <- _. congruence.
      + change (folder_of (x :: l)) with (written (x :: l)). apply IH; [now rewrite <- app_assoc|discriminate| |].
        * unfold written in *. rewrite join_app in Hf by discriminate. cbn [length] in *. rewrite !app_length in Hf. change (length ($"/")) with 1%nat in Hf. lia.
        * intros a b E' Hm. pose proof (Hlong a b E' Hm) as Hlen. rewrite app_length in Hlen. cbn in Hlen. cbn [length].
          destruct (Nat.eq_dec (length a) (length l + 1 + 1)) as [Ea|]; [|cbn in *; lia]. exfalso.
          assert (a = (x :: l) ++ [n]).
          { rewrite <- (firstn_all a). rewrite Ea. replace (firstn (length l + 1 + 1) a) with (firstn (length l + 1 + 1) (a ++ b)).
            - rewrite <- E'. rewrite firstn_app. replace (length l + 1 + 1)%nat with (length ((x :: l) ++ [n])) by (rewrite app_length; cbn; lia). rewrite firstn_all, Nat.sub_diag. cbn [firstn]. now rewrite app_nil_r.
            - rewrite firstn_app, Ea, Nat.sub_diag. cbn [firstn]. now rewrite app_nil_r. }
          subst a. congruence.
  Qed.

  Lemma simply_find_spec t loc : valid t -> Forall proper_name loc ->
    exists a b i, simply_find t (written loc) = (written a, written b) /\ innermost t loc a b i.
  Proof.
    intros (Hroot & _ & _) Hp. destruct loc as [|x r].
    - destruct Hroot as [i0 Hi0]. exists [], [], i0. split; [|split; [reflexivity|]; split; [assumption|]].
      + unfold simply_find. cbn [length find_loop written join rsplit1]. change (rsplit1 slash (written [])) with (Some ([] : str, [] : str)). cbv iota.
        assert (E : dmem str_eqb t (written []) = true) by (apply mem_get; eauto). now rewrite E.
      + intros a' b' i' E _. destruct a'; [cbn; lia|discriminate].
    - apply (find_loop_spec t (written (x :: r)) (x :: r)); auto; [now rewrite app_nil_r|discriminate|].
      intros a b E _. rewrite E, app_length. lia.
  Qed.

  Lemma innermost_unique t loc a b i a' b' i' : innermost t loc a b i -> innermost t loc a' b' i' -> a = a' /\ b = b' /\ i = i'.
  Proof.
    intros (E1 & M1 & L1) (E2 & M2 & L2). pose proof (L1 _ _ _ E2 M2). pose proof (L2 _ _ _ E1 M1).
    assert (a = a').
    { assert (Hl : length a = length a') by lia. pose proof (f_equal (firstn (length a)) E1) as F1. pose proof (f_equal (firstn (length a)) E2) as F2.
      rewrite firstn_app, firstn_all, Nat.sub_diag in F1. rewrite Hl in F2. rewrite firstn_app, firstn_all, Nat.sub_diag in F2. cbn [firstn] in *. rewrite app_nil_r in F1, F2. rewrite Hl in F1. congruence. }
    subst a'. rewrite E1 in E2. apply app_inv_head in E2. subst b'. unfold mounted_at in *. split; [reflexivity|]. split; [reflexivity|congruence].
  Qed.

  Lemma simply_find_innermost t loc a b i : valid t -> Forall proper_name loc -> innermost t loc a b i ->
    simply_find t (written loc) = (written a, written b).
  Proof.
    intros Hv Hp H. destruct (simply_find_spec t loc Hv Hp) as (a' & b' & i' & E & H'). destruct (innermost_unique _ _ _ _ _ _ _ _ H H') as (-> & -> & _). exact E.
  Qed.

  Lemma at_mount_innermost def t loc a b i : innermost t loc a b i -> at_mount def t (written a) = i.
  Proof. intros (_ & M & _). unfold at_mount. now rewrite M. Qed.

  (** ** A new mount point changes only what is at or below it *)
  Lemma innermost_extend t mp i loc : mget t (written mp) = None -> Forall proper_name mp -> Forall proper_name loc -> (forall rest, loc <> mp ++ rest) ->
    forall a b x, innermost (mset t (written mp) i) loc a b x <-> innermost t loc a b x.
  Proof.
    intros Hnew Hmp Hloc Hout a b x.
    assert (K : forall a0 b0 y, loc = a0 ++ b0 -> (mounted_at (mset t (written mp) i) a0 y <-> mounted_at t a0 y)).
    { intros a0 b0 y E. unfold mounted_at. rewrite (dget_dset str_eqb str_eqb_spec). destruct (str_eqb_spec (written a0) (written mp)) as [Ew|]; [|reflexivity].
      exfalso. subst loc. apply Forall_app in Hloc as [Ha _]. apply written_inj in Ew; [|assumption|assumption]. subst a0. now apply (Hout b0). }
    unfold innermost. split; intros (E & M & L); (split; [assumption|]); (split; [now apply (K a b)|]); intros a' b' i' E' M'; apply (L a' b' i' E'); now apply (K a' b').
  Qed.

  Lemma valid_set t mp i : valid t -> Forall proper_name mp -> valid (mset t (written mp) i).
  Proof.
    intros ((i0 & H0) & Hn & Hk) Hmp. split; [|split].
    - unfold mounted_at in *. rewrite (dget_dset str_eqb str_eqb_spec). destruct (str_eqb (written []) (written mp)); eauto.
    - now apply (NoDup_dset str_eqb str_eqb_spec).
    - intros k Hin. apply (In_dkeys_dset str_eqb str_eqb_spec) in Hin as [->|Hin]; [eauto|now apply Hk].
  Qed.
  Lemma find_extend t mp i loc : valid t -> mget t (written mp) = None -> Forall proper_name mp -> Forall proper_name loc -> (forall rest, loc <> mp ++ rest) ->
    simply_find (mset t (written mp) i) (written loc) = simply_find t (written loc).
  Proof.
    intros Hv Hnew Hmp Hloc Hout. destruct (simply_find_spec t loc Hv Hloc) as (a & b & x & E & H). rewrite E.
    apply (simply_find_innermost _ loc a b x); [now apply valid_set|assumption|]. now apply innermost_extend.
  Qed.
End Find.

Section Extend.
  Context {U : Type}.
  Implicit Types (t : mtable U).

  Lemma dget_app {V} (t more : list (str * V)) k : mget (t ++ more) k = match mget t k with Some i => Some i | None => mget more k end.
  Proof. induction t as [|[k0 v0] t IH]; [reflexivity|]. cbn [app dget]. destruct (str_eqb k k0); auto. Qed.
  Lemma extends_get t t' k i : extends t t' -> mget t k = Some i -> mget t' k = Some i.
  Proof. intros [more ->] H. rewrite dget_app, H. reflexivity. Qed.
  Lemma extends_refl t : extends t t. Proof. exists []. now rewrite app_nil_r. Qed.
  Lemma extends_trans t1 t2 t3 : extends t1 t2 -> extends t2 t3 -> extends t1 t3.
  Proof. intros [a ->] [b ->]. exists (a ++ b). now rewrite app_assoc. Qed.
  Lemma dset_new {V} (t : list (str * V)) k i : mget t k = None -> mset t k i = t ++ [(k, i)].
  Proof. induction t as [|[k0 v0] t IH]; [reflexivity|]. cbn [dget dset app]. destruct (str_eqb k k0); [discriminate|]. intros H. now rewrite IH. Qed.
  Lemma extends_set t k i : mget t k = None -> extends t (mset t k i).
  Proof. intros H. rewrite dset_new by assumption. now exists [(k, i)]. Qed.

  Lemma innermost_untouched t t' loc : extends t t' -> untouched t t' loc -> forall a b x, innermost t' loc a b x <-> innermost t loc a b x.
  Proof.
    intros He Hu a b x. split; intros (E & M & L); (split; [assumption|]); split.
    - now apply (Hu a b).
    - intros a' b' i' E' M'. apply (L a' b' i' E'). unfold mounted_at in *. now apply (extends_get t).
    - unfold mounted_at in *. now apply (extends_get t).
    - intros a' b' i' E' M'. apply (L a' b' i' E'). now apply (Hu a' b').
  Qed.
  Lemma find_untouched t t' loc : valid t -> valid t' -> extends t t' -> Forall proper_name loc -> untouched t t' loc ->
    simply_find t' (written loc) = simply_find t (written loc).
  Proof.
    intros Hv Hv' He Hp Hu. destruct (simply_find_spec t loc Hv Hp) as (a & b & x & E & H). rewrite E.
    apply (simply_find_innermost _ loc a b x); [assumption|assumption|]. now apply (innermost_untouched t t').
  Qed.

  Lemma root_mounted def t t' : valid t -> extends t t' -> at_mount def t' $"/" = at_mount def t $"/".
  Proof. intros ((i & H) & _) He. unfold at_mount. change ($"/") with (written []). rewrite (extends_get t t' _ i He H). unfold mounted_at in H. now rewrite H. Qed.
  Lemma mount_same def t t' k : extends t t' -> dmem str_eqb t k = true -> at_mount def t' k = at_mount def t k.
  Proof. intros He H. apply mem_get in H as [i H]. unfold at_mount. rewrite (extends_get t t' k i He H). now rewrite H. Qed.
  Lemma find_mounted t loc mp rest : valid t -> Forall proper_name loc -> simply_find t (written loc) = (mp, rest) -> dmem str_eqb t mp = true.
  Proof.
    intros Hv Hp E. destruct (simply_find_spec t loc Hv Hp) as (a & b & x & E' & H). rewrite E in E'. injection E' as -> ->. destruct H as (_ & M & _). apply mem_get. now exists x.
  Qed.

  Lemma versions_untouched def t t' loc : valid t -> valid t' -> extends t t' -> Forall proper_name loc -> untouched t t' loc ->
    a_versions def t' (written loc) = a_versions def t (written loc).
  Proof.
    intros Hv Hv' He Hp Hu. unfold a_versions. rewrite (find_untouched t t' loc) by assumption. destruct (simply_find t (written loc)) as [mp rest] eqn:E.
    rewrite (mount_same def t t' mp) by (assumption || now apply (find_mounted t loc mp rest)). now rewrite (root_mounted def t t').
  Qed.
  Lemma lookup_untouched def t t' loc v : valid t -> valid t' -> extends t t' -> Forall proper_name loc -> untouched t t' loc ->
    a_lookup def t' (written loc) v = a_lookup def t (written loc) v.
  Proof.
    intros Hv Hv' He Hp Hu. unfold a_lookup, a_lookup_with. rewrite (versions_untouched def t t' loc) by assumption. rewrite (find_untouched t t' loc) by assumption. destruct (simply_find t (written loc)) as [mp rest] eqn:E.
    rewrite (mount_same def t t' mp) by (assumption || now apply (find_mounted t loc mp rest)). now rewrite (root_mounted def t t').
  Qed.

  Lemma rstrip_folder l : Forall proper_name l -> rstrip slash (folder_of l ++ $"/") = folder_of l.
  Proof.
    intros H. change ($"/") with [slash]. rewrite rstrip_snoc_sep. destruct l as [|x r]; [reflexivity|]. unfold folder_of at 1. now apply rstrip_written.
  Qed.
  Lemma path_split_written l n : Forall proper_name l -> proper_name n -> path_split (written (l ++ [n])) = (written l, n).
  Proof.
    intros Hl Hn. unfold path_split. rewrite rsplit_written by assumption. rewrite rstrip_folder by assumption. destruct l as [|x r]; [reflexivity|].
    unfold folder_of. destruct (str_eqb_spec (written (x :: r)) []) as [E|]; [discriminate|reflexivity].
  Qed.
  Lemma path_split_root : path_split (written []) = ($"/", []).
  Proof. reflexivity. Qed.

  (** The names of mount points directly in a folder. *)
  Definition here (path : str) (e : str * minfo U) : bool := let '(folder, name) := path_split (fst e) in str_eqb folder path && negb (str_eqb name []).
  Lemma here_iff t loc k i : valid t -> Forall proper_name loc -> In (k, i) t ->
    (here (written loc) (k, i) = true <-> exists n, proper_name n /\ k = written (loc ++ [n])).
  Proof.
    intros (_ & _ & Hk) Hp Hin. destruct (Hk k) as (l & Hl & ->); [now apply (in_map fst) in Hin|]. unfold here. cbn [fst].
    destruct l as [|n l _] using rev_ind.
    - rewrite path_split_root. change (str_eqb [] []) with true. cbn [negb]. rewrite Bool.andb_false_r. split; [discriminate|].
      intros (n & Hn & E). apply written_inj in E; [destruct loc; discriminate|assumption|]. apply Forall_app. split; [assumption|]. now constructor.
    - apply Forall_app in Hl as [Hl Hn]. inversion Hn as [|? ? Hn' _]; subst. rewrite path_split_written by assumption.
      assert (En : str_eqb n [] = false) by (destruct (str_eqb_spec n []) as [->|]; [now destruct Hn' as [X _]|reflexivity]). rewrite En. cbn [negb]. rewrite Bool.andb_true_r.
      split.
      + intros H. apply str_eqb_eq in H. apply written_inj in H; [|assumption|assumption]. subst. eauto.
      + intros (m & Hm & E). apply written_inj in E; [|apply Forall_app; now split|apply Forall_app; split; [assumption|now constructor]].
        apply app_inj_tail in E as [-> _]. apply str_eqb_refl.
  Qed.
End Extend.

Section Listing.
  Context {U : Type}.
  Implicit Types (t : mtable U).

  Lemma filter_here {V} (value : minfo U -> V) t path strip_extension transform files :
    append_mount_points strip_extension transform value t path files =
    match files with
    | LNone | LNames [] | LDict [] => LNone
    | LNames ns => if strip_extension || transform then LNames (ns ++ map (fun e => snd (path_split (fst e))) (filter (here path) t)) else LNames ns
    | LDict d => LDict (dupdate str_eqb d (map (fun e => (snd (path_split (fst e)), value (snd e))) (filter (here path) t)))
    end.
  Proof.
    assert (E : filter (fun '(mp, _) => let '(folder, name) := path_split mp in str_eqb folder path && negb (str_eqb name [])) t = filter (here path) t).
    { apply filter_ext. intros [mp i]. reflexivity. }
    unfold append_mount_points. rewrite E. destruct files as [|[|n ns]|[|e d]]; reflexivity.
  Qed.

  Lemma here_none t t' loc more : valid t' -> t' = t ++ more -> Forall proper_name loc ->
    (forall n i, mounted_at t' (loc ++ [n]) i -> mounted_at t (loc ++ [n]) i) -> filter (here (written loc)) t' = filter (here (written loc)) t.
  Proof.
    intros Hv E Hp Hc. subst t'. rewrite filter_app. replace (filter (here (written loc)) more) with ([] : mtable U); [now rewrite app_nil_r|].
    destruct (filter (here (written loc)) more) as [|[k i] r] eqn:Ef; [reflexivity|]. exfalso.
    assert (Hin : In (k, i) (filter (here (written loc)) more)) by (rewrite Ef; now left). apply filter_In in Hin as [Hin Hh].
    apply (here_iff (t ++ more) loc k i) in Hh as (n & Hn & ->); [|assumption|assumption|apply in_or_app; now right].
    destruct Hv as (_ & Hnd & _). assert (M : mounted_at (t ++ more) (loc ++ [n]) i) by (apply (NoDup_dget str_eqb str_eqb_spec); [assumption|apply in_or_app; now right]).
    apply Hc in M. unfold dkeys in Hnd. rewrite map_app in Hnd. apply (dget_Some_In str_eqb str_eqb_spec) in M. apply (in_map fst) in M. apply (in_map fst) in Hin. cbn [fst] in *.
    revert Hnd M Hin. generalize (written (loc ++ [n])). generalize (map fst t) (map fst more). clear. induction l as [|x l IH]; intros l0 k Hnd M Hin; [destruct M|].
    cbn in Hnd. inversion Hnd as [|? ? Hx Hl]; subst. destruct M as [->|M]; [apply Hx; apply in_or_app; now right|now apply (IH l0 k)].
  Qed.

  Lemma list_untouched def se tr t t' loc : valid t -> valid t' -> extends t t' -> Forall proper_name loc -> untouched t t' loc ->
    (forall n i, mounted_at t' (loc ++ [n]) i -> mounted_at t (loc ++ [n]) i) ->
    a_list def se tr t' (written loc) = a_list def se tr t (written loc) /\ a_list_mode def se tr t' (written loc) = a_list_mode def se tr t (written loc).
  Proof.
    intros Hv Hv' He Hp Hu Hc. unfold a_list, a_list_mode. rewrite (find_untouched t t' loc) by assumption. destruct (simply_find t (written loc)) as [mp rest] eqn:E.
    rewrite (mount_same def t t' mp) by (assumption || now apply (find_mounted t loc mp rest)). rewrite !filter_here.
    destruct He as [more He]. rewrite (here_none t t' loc more) by assumption. split; reflexivity.
  Qed.

  (** Which names mounting adds to a folder. *)
  Lemma here_names t loc n : valid t -> Forall proper_name loc ->
    (In n (map (fun e => snd (path_split (fst e))) (filter (here (written loc)) t)) <-> exists i, proper_name n /\ mounted_at t (loc ++ [n]) i).
  Proof.
    intros Hv Hp. rewrite in_map_iff. split.
    - intros ([k i] & E & H). cbn [fst] in E. apply filter_In in H as [Hin Hh]. pose proof Hh as Hh'. apply (here_iff t loc k i Hv Hp Hin) in Hh' as (m & Hm & ->).
      rewrite path_split_written in E by assumption. cbn in E. subst m. exists i. split; [assumption|]. apply (NoDup_dget str_eqb str_eqb_spec); [apply Hv|assumption].
    - intros (i & Hn & M). exists (written (loc ++ [n]), i). cbn [fst]. rewrite path_split_written by assumption. split; [reflexivity|].
      apply (dget_Some_In str_eqb str_eqb_spec) in M. apply filter_In. split; [assumption|]. apply (here_iff t loc); eauto.
  Qed.

  Lemma here_keys_nodup t loc : valid t -> Forall proper_name loc -> NoDup (map (fun e => snd (path_split (fst e))) (filter (here (written loc)) t)).
  Proof.
    intros Hv Hp. assert (Hk : forall k i, In (k, i) t -> here (written loc) (k, i) = true -> exists n, proper_name n /\ k = written (loc ++ [n])).
    { intros k i Hin Hh. now apply (here_iff t loc k i Hv Hp Hin). }
    destruct Hv as (_ & Hnd & _). revert Hnd Hk. clear -Hp. induction t as [|[k i] t IH]; intros Hnd Hk; [constructor|].
    cbn in Hnd. inversion Hnd as [|? ? Hx Hl]; subst. cbn [filter]. assert (IHt := IH Hl ltac:(intros; eapply Hk; [right; eassumption|assumption])).
    destruct (here (written loc) (k, i)) eqn:Eh; [|assumption]. cbn [map]. constructor; [|assumption]. intros Hin. apply in_map_iff in Hin as ([k2 i2] & E & H). cbn [fst] in E.
    apply filter_In in H as [H1 H2]. destruct (Hk k i (or_introl eq_refl) Eh) as (n & Hn & ->). destruct (Hk k2 i2 (or_intror H1) H2) as (m & Hm & ->).
    rewrite !path_split_written in E by assumption. cbn in E. subst m. apply Hx. now apply (in_map fst) in H1.
  Qed.

  (** The dictionary entries in the listing of a folder. *)
  Lemma list_dict def se tr t loc mp rest i d : valid t -> Forall proper_name loc -> innermost t loc mp rest i -> s_list (mi_source i) (written rest) = LDict d -> d <> [] ->
    exists d', a_list def se tr t (written loc) = LDict d' /\
      forall n, proper_name n -> dget str_eqb d' n = match mget t (written (loc ++ [n])) with Some j => Some (mi_root j) | None => dget str_eqb d n end.
  Proof.
    intros Hv Hp Hi Hs Hd. unfold a_list. rewrite (simply_find_innermost t loc mp rest i) by assumption. rewrite (at_mount_innermost def t loc mp rest i) by assumption.
    rewrite filter_here, Hs. destruct d as [|e d0]; [congruence|]. eexists. split; [reflexivity|]. intros n Hn.
    rewrite (dget_dupdate str_eqb str_eqb_spec).
    2:{ unfold dkeys. rewrite map_map. cbn [fst]. now apply here_keys_nodup. }
    destruct (dget str_eqb (map (fun e => (snd (path_split (fst e)), mi_root (snd e))) (filter (here (written loc)) t)) n) as [x|] eqn:E.
    - apply (dget_Some_In str_eqb str_eqb_spec) in E. apply in_map_iff in E as ([k j] & E & H). cbn [fst snd] in E. apply filter_In in H as [H1 H2].
      apply (here_iff t loc k j Hv Hp H1) in H2 as (m & Hm & ->). rewrite path_split_written in E by assumption. cbn [fst snd] in E. injection E as -> <-.
      rewrite (NoDup_dget str_eqb str_eqb_spec t _ j); [reflexivity|apply Hv|assumption].
    - destruct (mget t (written (loc ++ [n]))) as [j|] eqn:M; [|reflexivity]. exfalso. apply (dget_None str_eqb str_eqb_spec) in E. apply E. unfold dkeys. rewrite map_map. cbn [fst]. apply here_names; eauto.
  Qed.
  Lemma list_mode_dict def se tr t loc mp rest i d : valid t -> Forall proper_name loc -> innermost t loc mp rest i -> s_list_mode (mi_source i) (written rest) = LDict d -> d <> [] ->
    exists d', a_list_mode def se tr t (written loc) = LDict d' /\
      forall n, proper_name n -> dget str_eqb d' n = match mget t (written (loc ++ [n])) with Some j => Some (Z.lor (fi_mode (mi_root j)) 64) | None => dget str_eqb d n end.
  Proof.
    intros Hv Hp Hi Hs Hd. unfold a_list_mode. rewrite (simply_find_innermost t loc mp rest i) by assumption. rewrite (at_mount_innermost def t loc mp rest i) by assumption.
    rewrite filter_here, Hs. destruct d as [|e d0]; [congruence|]. eexists. split; [reflexivity|]. intros n Hn.
    rewrite (dget_dupdate str_eqb str_eqb_spec).
    2:{ unfold dkeys. rewrite map_map. cbn [fst]. now apply here_keys_nodup. }
    match goal with |- match ?X with _ => _ end = _ => destruct X as [x|] eqn:E end.
    - apply (dget_Some_In str_eqb str_eqb_spec) in E. apply in_map_iff in E as ([k j] & E & H). cbn [fst snd] in E. apply filter_In in H as [H1 H2].
      apply (here_iff t loc k j Hv Hp H1) in H2 as (m & Hm & ->). rewrite path_split_written in E by assumption. cbn [fst snd] in E. injection E as -> <-.
      rewrite (NoDup_dget str_eqb str_eqb_spec t _ j); [reflexivity|apply Hv|assumption].
    - destruct (mget t (written (loc ++ [n]))) as [j|] eqn:M; [|reflexivity]. exfalso. apply (dget_None str_eqb str_eqb_spec) in E. apply E. unfold dkeys. rewrite map_map. cbn [fst]. apply here_names; eauto.
  Qed.
End Listing.

(** ** Lazy mounting *)
Section Lazy.
  Context {U : Type}.
  Variable default : minfo U.
  Variable userdata_depth : finfo U -> Z.
  Variable max_depth : Z.
  Variable lazy : bool.
  Variable strip_suffix mount_name : str -> str.
  Variable folder_mode : Z -> Z.
  Variable open_nested : source U -> str -> str -> finfo U -> Z -> option (source U).
  Variable name_data : str -> U.
  Implicit Types (t : mtable U).
  Notation try_mount := (try_mount default userdata_depth max_depth strip_suffix mount_name folder_mode open_nested name_data).
  Notation mount_along := (mount_along default userdata_depth max_depth strip_suffix mount_name folder_mode open_nested name_data).
  Notation prepare := (prepare default userdata_depth max_depth lazy strip_suffix mount_name folder_mode open_nested name_data).
  Notation recursion_depth := (recursion_depth default userdata_depth).

  (** Mount points are canonical paths when archives are. *)
  Definition canonical_names : Prop := forall loc, Forall proper_name loc -> loc <> [] -> exists loc', Forall proper_name loc' /\ mount_name (written loc) = written loc'.

  Lemma try_mount_grows t p : extends t (fst (try_mount t p)).
  Proof.
    unfold try_mount. destruct (max_depth <? _); [apply extends_refl|]. destruct (str_eqb _ _); [apply extends_refl|].
    destruct (dmem str_eqb t (mount_name p)) eqn:Em; [apply extends_refl|]. destruct (simply_find t p) as [mp rest].
    destruct (s_lookup _ rest 0) as [f|]; [|apply extends_refl]. destruct (open_nested _ p rest f _) as [s|]; [|apply extends_refl].
    cbn [fst]. apply extends_set. unfold dmem in Em. now destruct (mget t (mount_name p)).
  Qed.
  Lemma try_mount_valid t loc : canonical_names -> valid t -> Forall proper_name loc -> loc <> [] -> valid (fst (try_mount t (written loc))).
  Proof.
    intros Hc Hv Hp Hne. unfold try_mount. destruct (max_depth <? _); [assumption|]. destruct (str_eqb _ _); [assumption|].
    destruct (dmem str_eqb t (mount_name (written loc))) eqn:Em; [assumption|]. destruct (simply_find t (written loc)) as [mp rest].
    destruct (s_lookup _ rest 0) as [f|]; [|assumption]. destruct (open_nested _ (written loc) rest f _) as [s|]; [|assumption].
    cbn [fst]. destruct (Hc loc Hp Hne) as (loc' & Hp' & ->). now apply valid_set.
  Qed.

  Lemma mount_along_grows parts : forall t sub, extends t (mount_along t sub parts).
  Proof.
    induction parts as [|p r IH]; intros t sub; [apply extends_refl|]. cbn [Auto_Model.mount_along]. destruct (max_depth <? _); [apply extends_refl|].
    eapply extends_trans; [|apply IH]. destruct (dmem str_eqb t _); [apply extends_refl|]. apply try_mount_grows.
  Qed.
  Lemma mount_along_valid parts : forall t l, canonical_names -> valid t -> Forall proper_name (l ++ parts) -> valid (mount_along t (written l) parts).
  Proof.
    induction parts as [|p r IH]; intros t l Hc Hv Hp; [assumption|]. cbn [Auto_Model.mount_along].
    assert (Hl : Forall proper_name (l ++ [p])). { apply Forall_app in Hp as [H1 H2]. inversion H2; subst. apply Forall_app. split; [assumption|]. now constructor. }
    rewrite join_written; [|now apply Forall_app in Hl|apply Forall_app in Hl as [_ X]; now inversion X].
    destruct (max_depth <? _); [assumption|]. apply IH; [assumption| |now rewrite <- app_assoc].
    destruct (dmem str_eqb t _); [assumption|]. apply try_mount_valid; auto. destruct l; discriminate.
  Qed.

  Lemma prepare_parts loc : Forall proper_name loc -> split slash (lstrip slash (written loc)) = match loc with [] => [[]] | _ => loc end.
  Proof.
    intros Hp. destruct loc as [|x r]; [reflexivity|]. unfold written. rewrite lstrip_sep.
    inversion Hp as [|? ? Hx Hr]; subst. destruct Hx as (Hne & _ & _ & Hs). destruct x as [|c x]; [congruence|].
    assert (E : exists y, join $"/" ((c :: x) :: r) = c :: y) by (destruct r; eexists; reflexivity). destruct E as [y E]. rewrite E, lstrip_id, <- E.
    - apply (split_join slash); [discriminate|now apply proper_no_slash].
    - intros ->. apply Hs. now left.
  Qed.
  Lemma prepare_written t loc : Forall proper_name loc -> valid t -> prepare t (written loc) = if negb (max_depth =? 0) && lazy then mount_along t (written []) loc else t.
  Proof.
    intros Hp Hv. unfold prepare. rewrite prepare_parts by assumption. destruct (negb _ && lazy); [|reflexivity]. destruct loc as [|x r]; [|reflexivity].
    cbn [Auto_Model.mount_along]. change (path_join $"/" []) with (written []). destruct (max_depth <? _); [reflexivity|].
    assert (E : dmem str_eqb t (written []) = true) by (apply mem_get; apply Hv). now rewrite E.
  Qed.
  Lemma prepare_grows t p : extends t (prepare t p).
  Proof. unfold prepare. destruct (_ && lazy); [apply mount_along_grows|apply extends_refl]. Qed.
  Lemma prepare_valid t loc : canonical_names -> valid t -> Forall proper_name loc -> valid (prepare t (written loc)).
  Proof. intros Hc Hv Hp. rewrite prepare_written by assumption. destruct (_ && lazy); [|assumption]. now apply mount_along_valid. Qed.
End Lazy.

Section Answers.
  Context {U : Type}.
  Implicit Types (t : mtable U).

  (** What is answered for a path depends only on the archive it leads into and on the outermost source. *)
  Lemma same_answers def t t' loc mp rest i : valid t -> valid t' -> Forall proper_name loc -> innermost t loc mp rest i -> innermost t' loc mp rest i ->
    (forall r, mounted_at t [] r <-> mounted_at t' [] r) ->
    a_versions def t' (written loc) = a_versions def t (written loc) /\
    forall v n, a_lookup_with def t' (written loc) v n = a_lookup_with def t (written loc) v n.
  Proof.
    intros Hv Hv' Hp Hi Hi' Hr. unfold a_versions, a_lookup_with.
    rewrite (simply_find_innermost t loc mp rest i), (simply_find_innermost t' loc mp rest i) by assumption.
    rewrite (at_mount_innermost def t loc mp rest i), (at_mount_innermost def t' loc mp rest i) by assumption.
    assert (E : at_mount def t' $"/" = at_mount def t $"/").
    { unfold at_mount. change ($"/") with (written []). destruct Hv as ((r & H) & _). unfold mounted_at in *. rewrite H. apply Hr in H. now rewrite H. }
    rewrite E. split; reflexivity.
  Qed.
  Lemma innermost_snoc t l n mp rest i : innermost t l mp rest i -> mget t (written (l ++ [n])) = None -> innermost t (l ++ [n]) mp (rest ++ [n]) i.
  Proof.
    intros (E & M & L) Hn. split; [subst l; now rewrite app_assoc|]. split; [assumption|]. intros a b j E' M'. destruct b as [|x b _] using rev_ind.
    - rewrite app_nil_r in E'. subst a. unfold mounted_at in M'. congruence.
    - rewrite app_assoc in E'. apply app_inj_tail in E' as [E' _]. now apply (L a b j).
  Qed.
  Lemma innermost_self t l i : mounted_at t l i -> innermost t l l [] i.
  Proof. intros M. split; [now rewrite app_nil_r|]. split; [assumption|]. intros a b j E _. rewrite E, app_length. lia. Qed.
End Answers.

Section Follow.
  Context {U : Type}.
  Variable default : minfo U.
  Variable userdata_depth : finfo U -> Z.
  Variable max_depth : Z.
  Variable strip_suffix mount_name : str -> str.
  Variable folder_mode : Z -> Z.
  Variable open_nested : source U -> str -> str -> finfo U -> Z -> option (source U).
  Variable name_data : str -> U.
  Implicit Types (t : mtable U).
  Notation try_mount := (try_mount default userdata_depth max_depth strip_suffix mount_name folder_mode open_nested name_data).
  Notation mount_along := (mount_along default userdata_depth max_depth strip_suffix mount_name folder_mode open_nested name_data).
  Notation recursion_depth := (recursion_depth default userdata_depth).
  Notation enter := (archive_at userdata_depth max_depth strip_suffix folder_mode open_nested name_data).
  Notation follow := (follow enter).

  Hypothesis keep_names : forall p, mount_name p = p.
  Hypothesis depth_nonneg : forall f, 0 <= userdata_depth f.
  Definition rooted (s : source U) : Prop := exists f, s_lookup s $"/" 0 = Some f /\ userdata_depth f = 0.
  Hypothesis open_rooted : forall s p r f d s', open_nested s p r f d = Some s' -> rooted s'.
  Variable root : minfo U.
  Hypothesis root_depth : mi_depth root <= max_depth.

  Definition consistent t : Prop :=
    valid t /\ mounted_at t [] root /\
    forall l i, Forall proper_name l -> mounted_at t l i -> follow [] [] root l = (l, [], i) /\ mi_depth i <= max_depth /\ (l <> [] -> rooted (mi_source i)).

  Lemma follow_deep mp i : max_depth < mi_depth i + 1 -> mi_depth i <= max_depth -> forall todo rest, follow mp rest i todo = (mp, rest ++ todo, i).
  Proof.
    intros Hd Hi. induction todo as [|n todo IH]; intros rest; cbn [Auto_Spec.follow]; [now rewrite app_nil_r|].
    unfold archive_at. destruct (s_lookup (mi_source i) (written (rest ++ [n])) 0) as [f|]; [|rewrite IH; now rewrite <- app_assoc].
    pose proof (depth_nonneg f). replace (max_depth <? mi_depth i + (userdata_depth f + 1)) with true by (symmetry; apply Z.ltb_lt; lia). reflexivity.
  Qed.

  (** When the path can no longer lead into another archive, nothing deeper is mounted. *)
  Lemma no_deeper t l mp rest i todo : consistent t -> Forall proper_name (l ++ todo) -> innermost t l mp rest i ->
    (forall c d, todo = c ++ d -> follow [] [] root (l ++ c) = (mp, rest ++ c, i)) -> innermost t (l ++ todo) mp (rest ++ todo) i.
  Proof.
    intros (_ & _ & Hc) Hp (E & M & L) Hf. split; [subst l; now rewrite app_assoc|]. split; [assumption|]. intros a b j E' M'.
    destruct (app_eq_app _ _ _ _ E') as [c [[Ec Eb]|[Ec Eb]]].
    - now apply (L a c j).
    - destruct c as [|x c]; [rewrite app_nil_r in Ec; subst a; apply (L l [] j); [now rewrite app_nil_r|assumption]|]. exfalso. remember (x :: c) as c' eqn:Ex.
      subst a. assert (Hpa : Forall proper_name (l ++ c')). { rewrite Eb, app_assoc in Hp. now apply Forall_app in Hp. }
      destruct (Hc (l ++ c') j Hpa M') as (F & _ & _). rewrite (Hf c' b Eb) in F. injection F as F1 F2 _. subst c'. destruct rest; discriminate.
  Qed.

  Lemma depth_at t l mp rest i : valid t -> Forall proper_name l -> innermost t l mp rest i ->
    recursion_depth t (written l) = mi_depth i + match s_lookup (mi_source i) (written rest) 0 with Some f => userdata_depth f + 1 | None => 0 end.
  Proof. intros Hv Hp Hi. unfold recursion_depth. rewrite (simply_find_innermost t l mp rest i) by assumption. now rewrite (at_mount_innermost default t l mp rest i) by assumption. Qed.

  Lemma consistent_set t l i : consistent t -> Forall proper_name l -> l <> [] -> follow [] [] root l = (l, [], i) -> mi_depth i <= max_depth -> rooted (mi_source i) ->
    consistent (mset t (written l) i).
  Proof.
    intros (Hv & Hr & Hc) Hp Hne Hf Hd Hs. split; [now apply valid_set|]. split.
    - unfold mounted_at in *. rewrite (dget_dset str_eqb str_eqb_spec). destruct (str_eqb_spec (written []) (written l)) as [E|]; [|assumption].
      apply written_inj in E; [congruence|constructor|assumption].
    - intros l' i' Hp' M. unfold mounted_at in M. rewrite (dget_dset str_eqb str_eqb_spec) in M. destruct (str_eqb_spec (written l') (written l)) as [E|]; [|now apply Hc].
      apply written_inj in E; [|assumption|assumption]. subst l'. injection M as <-. auto.
  Qed.

  Lemma mount_along_follows todo : forall t mp rest i, consistent t -> Forall proper_name ((mp ++ rest) ++ todo) ->
    innermost t (mp ++ rest) mp rest i -> (forall more, follow [] [] root ((mp ++ rest) ++ more) = follow mp rest i more) ->
    let t' := mount_along t (written (mp ++ rest)) todo in
    consistent t' /\ exists a b j, follow mp rest i todo = (a, b, j) /\ innermost t' ((mp ++ rest) ++ todo) a b j.
  Proof.
    induction todo as [|n todo IH]; intros t mp rest i Ht Hp Hi Hf; cbv zeta.
    - cbn [Auto_Model.mount_along Auto_Spec.follow]. split; [assumption|]. exists mp, rest, i. split; [reflexivity|]. now rewrite app_nil_r.
    - set (sub := (mp ++ rest) ++ [n]).
      assert (Hsub : Forall proper_name sub). { apply Forall_app in Hp as [H1 H2]. inversion H2; subst. apply Forall_app. split; [assumption|]. now constructor. }
      assert (Hn : sub <> []) by (unfold sub; destruct (mp ++ rest); discriminate).
      assert (Es : sub = mp ++ rest ++ [n]) by (unfold sub; now rewrite app_assoc).
      assert (Hp' : Forall proper_name (sub ++ todo)) by (unfold sub; now rewrite <- app_assoc).
      assert (Hf' : forall more, follow [] [] root (sub ++ more) = match enter mp (rest ++ [n]) i with Stop => (mp, rest ++ n :: more, i) | Stay => follow mp (rest ++ [n]) i more | Inside i' => follow sub [] i' more end).
      { intros more. unfold sub. rewrite <- app_assoc. cbn [app]. rewrite Hf. cbn [Auto_Spec.follow]. rewrite <- app_assoc. reflexivity. }
      pose proof Ht as (Hv & Hroot & Hc). destruct Hi as (_ & Mi & Li). assert (Hi : innermost t (mp ++ rest) mp rest i) by (split; [reflexivity|now split]).
      assert (Hmp : Forall proper_name mp) by (apply Forall_app in Hp as [H1 _]; now apply Forall_app in H1).
      destruct (Hc mp i Hmp Mi) as (_ & Hdi & _).
      replace ((mp ++ rest) ++ n :: todo) with (sub ++ todo) by (unfold sub; now rewrite <- app_assoc).
      cbn [Auto_Model.mount_along]. rewrite join_written; [|now apply Forall_app in Hp|apply Forall_app in Hp as [_ X]; now inversion X].
      fold sub. cbn [Auto_Spec.follow]. rewrite <- Es.
      destruct (dmem str_eqb t (written sub)) eqn:Em.
      + apply mem_get in Em as [j Hj]. destruct (Hc sub j Hsub Hj) as (Fj & Hdj & Hrj). specialize (Hrj Hn). destruct Hrj as (fr & Hfr & Hur).
        rewrite (depth_at t sub sub [] j) by (assumption || now apply innermost_self). change (written []) with ($"/"). rewrite Hfr, Hur.
        pose proof (Hf' []) as F0. rewrite app_nil_r, Fj in F0.
        destruct (enter mp (rest ++ [n]) i) as [| |i'] eqn:Ee; cbn [Auto_Spec.follow] in F0.
        * injection F0 as _ F0 _. destruct rest; discriminate.
        * injection F0 as _ F0 _. destruct rest; discriminate.
        * injection F0 as <-. destruct (Z.ltb_spec max_depth (mi_depth j + (0 + 1))) as [Hlt|Hge].
          -- split; [assumption|]. exists sub, todo, j. rewrite (follow_deep sub j) by lia. split; [reflexivity|].
             apply (no_deeper t sub sub [] j todo); [assumption|assumption|now apply innermost_self|]. intros c d _. rewrite Hf'. rewrite follow_deep by lia. reflexivity.
          -- pose proof (IH t sub [] j) as X. rewrite app_nil_r in X. apply X; try assumption. now apply innermost_self.
      + assert (Hnone : mget t (written sub) = None) by (unfold dmem in Em; destruct (mget t (written sub)); [discriminate|reflexivity]).
        assert (Hi' : innermost t sub mp (rest ++ [n]) i) by (now apply innermost_snoc).
        rewrite (depth_at t sub mp (rest ++ [n]) i) by assumption.
        unfold Auto_Model.try_mount. rewrite (depth_at t sub mp (rest ++ [n]) i) by assumption. rewrite keep_names, Em.
        rewrite (simply_find_innermost t sub mp (rest ++ [n]) i) by assumption. rewrite (at_mount_innermost default t sub mp (rest ++ [n]) i) by assumption.
        revert Hf'. unfold archive_at. rewrite <- Es.
        destruct (s_lookup (mi_source i) (written (rest ++ [n])) 0) as [f|] eqn:El.
        * destruct (Z.ltb_spec max_depth (mi_depth i + (userdata_depth f + 1))) as [Hlt|Hge]; intros Hf'.
          -- split; [assumption|]. exists mp, (rest ++ n :: todo), i. split; [reflexivity|].
             replace (rest ++ n :: todo) with ((rest ++ [n]) ++ todo) by (now rewrite <- app_assoc). apply no_deeper; [assumption|assumption|assumption|].
             intros c d _. rewrite Hf'. now rewrite <- app_assoc.
          -- destruct (str_eqb (strip_suffix (written sub)) (written sub)) eqn:Est.
             { cbn [fst]. pose proof (IH t mp (rest ++ [n]) i) as X. rewrite <- Es in X. apply X; assumption. }
             destruct (open_nested (mi_source i) (written sub) (written (rest ++ [n])) f (mi_depth i + (userdata_depth f + 1))) as [s|] eqn:Eo.
             ++ cbn [fst]. set (j := mkM s _ _) in *. pose proof (IH (mset t (written sub) j) sub [] j) as X. rewrite app_nil_r in X. apply X.
                ** apply consistent_set; try assumption; [|subst j; cbn [mi_source]; now apply (open_rooted _ _ _ _ _ _ Eo)]. pose proof (Hf' []) as F0. rewrite app_nil_r in F0. exact F0.
                ** assumption.
                ** apply innermost_self. unfold mounted_at. apply (dget_dset_same str_eqb str_eqb_spec).
                ** exact Hf'.
             ++ cbn [fst]. pose proof (IH t mp (rest ++ [n]) i) as X. rewrite <- Es in X. apply X; assumption.
        * intros Hf'. destruct (Z.ltb_spec max_depth (mi_depth i + 0)) as [Hlt|Hge]; [lia|].
          destruct (str_eqb (strip_suffix (written sub)) (written sub)); cbn [fst]; (pose proof (IH t mp (rest ++ [n]) i) as X; rewrite <- Es in X; apply X; assumption).
  Qed.
End Follow.

(** ** The walk in the constructor *)
Section Walk.
  Context {U : Type}.
  Variable default : minfo U.
  Variable userdata_depth : finfo U -> Z.
  Variable max_depth : Z.
  Variable strip_extension transform : bool.
  Variable strip_suffix mount_name : str -> str.
  Variable folder_mode : Z -> Z.
  Variable open_nested : source U -> str -> str -> finfo U -> Z -> option (source U).
  Variable name_data : str -> U.
  Implicit Types (t : mtable U).
  Notation try_mount := (try_mount default userdata_depth max_depth strip_suffix mount_name folder_mode open_nested name_data).
  Notation walk_file := (walk_file default userdata_depth max_depth strip_suffix mount_name folder_mode open_nested name_data).
  Notation walk_folder := (walk_folder default userdata_depth max_depth strip_extension transform strip_suffix mount_name folder_mode open_nested name_data).
  Notation walk := (walk default userdata_depth max_depth strip_extension transform strip_suffix mount_name folder_mode open_nested name_data).

  Definition proper_listings (s : source U) : Prop := forall p n, In n (names_of (s_list s p)) -> proper_name n.
  Hypothesis names : canonical_names mount_name.
  Hypothesis open_proper : forall s p r f d s', open_nested s p r f d = Some s' -> proper_listings s'.
  Definition walkable t : Prop := valid t /\ forall k i, In (k, i) t -> proper_listings (mi_source i).

  Lemma try_walkable t l : walkable t -> Forall proper_name l -> l <> [] -> walkable (fst (try_mount t (written l))) /\
    forall mp, snd (try_mount t (written l)) = Some mp -> exists l', Forall proper_name l' /\ mp = written l'.
  Proof.
    intros [Hv Hw] Hp Hne. split.
    - split; [now apply try_mount_valid|]. unfold try_mount. destruct (max_depth <? _); [assumption|]. destruct (str_eqb _ _); [assumption|].
      destruct (dmem str_eqb t (mount_name (written l))) eqn:Em; [assumption|]. destruct (simply_find t (written l)) as [mp rest].
      destruct (s_lookup _ rest 0) as [f|]; [|assumption]. destruct (open_nested _ (written l) rest f _) as [s|] eqn:Eo; [|assumption].
      cbn [fst]. rewrite dset_new by (unfold dmem in Em; now destruct (mget t (mount_name (written l)))). intros k i Hin. apply in_app_or in Hin as [Hin|[Hin|[]]]; [now apply (Hw k i)|].
      assert (E : i = mkM s (mkInfo (fi_size f) (fi_mtime f) (folder_mode (fi_mode f)) [] (fi_uid f) (fi_gid f) [name_data (mount_name (written l))]) (recursion_depth default userdata_depth t (written l))) by congruence.
      rewrite E. cbn [mi_source]. now apply (open_proper _ _ _ _ _ _ Eo).
    - intros mp. unfold try_mount. destruct (max_depth <? _); [discriminate|]. destruct (str_eqb _ _); [discriminate|].
      destruct (dmem str_eqb t (mount_name (written l))); [discriminate|]. destruct (simply_find t (written l)) as [mp' rest].
      destruct (s_lookup _ rest 0) as [f|]; [|discriminate]. destruct (open_nested _ (written l) rest f _) as [s|]; [|discriminate].
      cbn [snd]. intros E. destruct (names l Hp Hne) as (l' & Hl' & E'). exists l'. split; [assumption|]. congruence.
  Qed.

  Lemma listed_proper t l n : walkable t -> Forall proper_name l -> In n (names_of (a_list default strip_extension transform t (written l))) -> proper_name n.
  Proof.
    intros [Hv Hw] Hp. unfold a_list. destruct (simply_find_spec t l Hv Hp) as (a & b & i & E & Hi). rewrite E. rewrite (at_mount_innermost default t l a b i) by assumption.
    assert (Hs : proper_listings (mi_source i)). { destruct Hi as (_ & M & _). apply (dget_Some_In str_eqb str_eqb_spec) in M. now apply (Hw (written a) i). }
    specialize (Hs (written b) n). rewrite filter_here. destruct (s_list (mi_source i) (written b)) as [|ns|d].
    - intros [].
    - destruct ns as [|x ns]; [intros []|]. destruct (strip_extension || transform); [|exact Hs]. cbn [names_of] in *. intros H. apply in_app_or in H as [H|H]; [now apply Hs|]. apply here_names in H as (j & H & _); assumption.
    - destruct d as [|e d]; [intros []|]. cbn [names_of] in *. intros H. apply (In_dkeys_dupdate str_eqb str_eqb_spec) in H as [H|H]; [now apply Hs|].
      unfold dkeys in H. rewrite map_map in H. cbn [fst] in H. apply here_names in H as (j & H & _); assumption.
  Qed.

  Definition canonical_paths (ps : list str) : Prop := Forall (fun p => exists l, Forall proper_name l /\ p = written l) ps.
  Lemma walk_file_ok t next l n : walkable t -> canonical_paths next -> Forall proper_name l -> proper_name n ->
    let r := walk_file (written l) (t, next) n in walkable (fst r) /\ canonical_paths (snd r) /\ extends t (fst r).
  Proof.
    intros Hw Hn Hl Hp. cbv zeta. unfold Auto_Model.walk_file. rewrite join_written by assumption. assert (Hln : Forall proper_name (l ++ [n])) by (apply Forall_app; split; [assumption|now constructor]).
    destruct (is_dir default t (written (l ++ [n]))).
    - cbn [fst snd]. split; [assumption|]. split; [|apply extends_refl]. apply Forall_app. split; [assumption|]. constructor; [|constructor]. eauto.
    - assert (Hne : l ++ [n] <> []) by (destruct l; discriminate). destruct (try_walkable t (l ++ [n]) Hw Hln Hne) as [W M]. pose proof (try_mount_grows default userdata_depth max_depth strip_suffix mount_name folder_mode open_nested name_data t (written (l ++ [n]))) as G.
      destruct (try_mount t (written (l ++ [n]))) as [t' [mp|]]; cbn [fst snd] in *; (split; [assumption|]); (split; [|assumption]).
      + apply Forall_app. split; [assumption|]. constructor; [|constructor]. now apply M.
      + assumption.
  Qed.
  Lemma walk_folder_ok t next l : walkable t -> canonical_paths next -> Forall proper_name l ->
    let r := walk_folder (t, next) (written l) in walkable (fst r) /\ canonical_paths (snd r) /\ extends t (fst r).
  Proof.
    intros Hw Hn Hl. cbv zeta. unfold Auto_Model.walk_folder. destruct (max_depth <? _); [cbn [fst snd]; split; [assumption|]; split; [assumption|apply extends_refl]|].
    assert (Hns : Forall proper_name (names_of (a_list default strip_extension transform t (written l)))) by (apply Forall_forall; intros n; now apply listed_proper).
    revert Hns. generalize (names_of (a_list default strip_extension transform t (written l))). intros ns. revert t next Hw Hn. induction ns as [|n ns IH]; intros t next Hw Hn Hns; cbn [fold_left].
    - cbn [fst snd]. split; [assumption|]. split; [assumption|apply extends_refl].
    - inversion Hns as [|? ? H1 H2]; subst. destruct (walk_file_ok t next l n Hw Hn Hl H1) as (W & N & E). destruct (walk_file (written l) (t, next) n) as [t' next']. cbn [fst snd] in *.
      destruct (IH t' next' W N H2) as (W' & N' & E'). split; [assumption|]. split; [assumption|]. eapply extends_trans; eassumption.
  Qed.
  Lemma walk_ok fuel : forall t folders, walkable t -> canonical_paths folders -> walkable (walk fuel t folders) /\ extends t (walk fuel t folders).
  Proof.
    induction fuel as [|fuel IH]; intros t folders Hw Hf; cbn [Auto_Model.walk]; destruct folders as [|p ps]; try (split; [assumption|apply extends_refl]).
    assert (X : forall fs t next, walkable t -> canonical_paths next -> canonical_paths fs -> let r := fold_left walk_folder fs (t, next) in walkable (fst r) /\ canonical_paths (snd r) /\ extends t (fst r)).
    { clear -names open_proper. intros fs. induction fs as [|f fs IH]; intros t next Hw Hn Hf; cbn [fold_left]; [cbn [fst snd]; split; [assumption|]; split; [assumption|apply extends_refl]|].
      inversion Hf as [|? ? (l & Hl & ->) H2]; subst. destruct (walk_folder_ok t next l Hw Hn Hl) as (W & N & E). destruct (walk_folder (t, next) (written l)) as [t' next']. cbn [fst snd] in *.
      destruct (IH t' next' W N H2) as (W' & N' & E'). split; [assumption|]. split; [assumption|]. eapply extends_trans; eassumption. }
    destruct (X (p :: ps) t [] Hw (Forall_nil _) Hf) as (W & N & E). destruct (fold_left walk_folder (p :: ps) (t, [])) as [t' next]. cbn [fst snd] in *.
    destruct (IH t' next W N) as [W' E']. split; [assumption|]. eapply extends_trans; eassumption.
  Qed.
End Walk.
