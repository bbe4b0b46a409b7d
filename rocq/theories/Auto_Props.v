(** Recursive mounting: C26 and C27. *)
From Coq Require Import Ascii String.
From Verif Require Import PyBase PyDict PyStr Path_Model Path_Spec Path_Proofs FileInfo Union_Model Union_Spec Union_Proofs Tree_Source Auto_Model Auto_Spec Auto_Proofs.
Local Open Scope Z_scope.

Lemma pick_range {X} (vs : list X) v : - Z.of_nat (length vs) < v <= Z.of_nat (length vs) \/ (length vs <= 1)%nat ->
  pick vs (normalize_version v (Z.of_nat (length vs))) = pick vs v.
Proof.
  intros H. unfold normalize_version. destruct (Z.ltb_spec 1 (Z.of_nat (length vs))) as [Hn|]; [|reflexivity]. destruct H as [H|H]; [|lia].
  set (n := Z.of_nat (length vs)) in *.
  destruct (Z_lt_le_dec 0 v) as [Hv|Hv].
  - rewrite Z.mod_small with (a := v - 1) by lia. replace (v - 1 + 1) with v by lia. destruct (Z.eq_dec v n) as [->|].
    + rewrite Z.mod_same by lia. unfold pick. cbn [Z.leb Z.compare Z.opp Z.to_nat]. replace (n <=? 0) with false by (symmetry; apply Z.leb_gt; lia).
      rewrite <- (rev_involutive vs) at 2. unfold n. destruct (rev vs) as [|x r] eqn:E; [apply (f_equal (@length X)) in E; rewrite rev_length in E; cbn in E; lia|].
      cbn [nth_error rev]. assert (El : length vs = S (length r)) by (rewrite <- (rev_length vs), E; reflexivity). replace (Z.to_nat (Z.of_nat (length vs) - 1)) with (length (rev r)) by (rewrite rev_length; lia).
      rewrite nth_error_app2 by lia. now rewrite Nat.sub_diag.
    + now rewrite Z.mod_small by lia.
  - destruct (Z.eq_dec v 0) as [->|].
    + replace (0 - 1) with (-1) by lia. replace ((-1) mod n) with (n - 1) by (apply (Z.mod_unique _ _ (-1)); lia). replace (n - 1 + 1) with n by lia. now rewrite Z.mod_same by lia.
    + replace ((v - 1) mod n) with (n + v - 1) by (apply (Z.mod_unique _ _ (-1)); lia). replace (n + v - 1 + 1) with (n + v) by lia. rewrite Z.mod_small by lia.
      unfold pick. replace (n + v <=? 0) with false by (symmetry; apply Z.leb_gt; lia). replace (v <=? 0) with true by (symmetry; apply Z.leb_le; lia).
      assert (G : forall (l : list X) k, (k < length l)%nat -> nth_error (rev l) k = nth_error l (length l - 1 - k)).
      { intros l k Hk. destruct (nth_error (rev l) k) as [x|] eqn:E.
        - rewrite (nth_error_nth' l x) by lia. apply (nth_error_nth _ _ x) in E. rewrite rev_nth in E by lia. rewrite <- E at 1. do 2 f_equal. lia.
        - apply nth_error_None in E. rewrite rev_length in E. lia. }
      rewrite G by lia. f_equal. unfold n. lia.
Qed.

(** ** C26: the innermost archive answers *)
(** For every path there is exactly one innermost mounted archive. *)
Theorem C26_innermost_exists {U} (t : mtable U) loc : valid t -> Forall proper_name loc ->
  exists mp rest i, innermost t loc mp rest i /\ forall mp' rest' i', innermost t loc mp' rest' i' -> mp' = mp /\ rest' = rest /\ i' = i.
Proof.
  intros Hv Hp. destruct (simply_find_spec t loc Hv Hp) as (a & b & i & _ & H). exists a, b, i. split; [assumption|].
  intros a' b' i' H'. destruct (innermost_unique _ _ _ _ _ _ _ _ H H') as (-> & -> & ->). auto.
Qed.
Print Assumptions C26_innermost_exists.

(** That archive answers with the rest of the path, for all versions it has; its own folder has the metadata made from the archive file. *)
Theorem C26_innermost_answers {U} (default : minfo U) t loc mp rest i vs v :
  valid t -> Forall proper_name loc -> innermost t loc mp rest i -> numbered (written rest) (mi_source i) vs ->
  (rest <> [] -> a_versions default t (written loc) = length vs) /\
  (rest <> [] -> - Z.of_nat (length vs) < v <= Z.of_nat (length vs) \/ (length vs <= 1)%nat ->
     a_lookup default t (written loc) v = option_map (pair (written mp)) (pick vs v)) /\
  (rest = [] -> a_lookup default t (written loc) 0 = Some (written mp, mi_root i)).
Proof.
  intros Hv Hp Hi [Hn Hl]. unfold a_lookup, a_lookup_with, a_versions. rewrite (simply_find_innermost t loc mp rest i) by assumption. rewrite (at_mount_innermost default t loc mp rest i) by assumption.
  assert (Hr : Forall proper_name rest) by (destruct Hi as [-> _]; now apply Forall_app in Hp).
  assert (Er : rest <> [] -> str_eqb (written rest) $"/" = false).
  { intros Hne. destruct (str_eqb_spec (written rest) $"/") as [E|]; [|reflexivity]. change ($"/") with (written []) in E. apply written_inj in E; [congruence|assumption|constructor]. }
  split; [|split].
  - intros Hne. rewrite (Er Hne), Bool.andb_false_r. exact Hn.
  - intros Hne Hv'. rewrite (Er Hne), !Bool.andb_false_r. cbn [negb orb]. rewrite !Bool.orb_true_r. cbn [orb]. rewrite Hn, Z.sub_0_r, Hl. now rewrite pick_range.
  - intros ->. change (str_eqb (written []) $"/") with true. rewrite Bool.andb_true_r.
    match goal with |- context [normalize_version 0 ?n] => set (n0 := n) end.
    assert (E0 : normalize_version 0 n0 = 0).
    { unfold normalize_version. destruct (Z.ltb_spec 1 n0) as [H|]; [|reflexivity]. replace (0 - 1) with (-1) by lia. replace ((-1) mod n0) with (n0 - 1) by (apply (Z.mod_unique _ _ (-1)); lia). replace (n0 - 1 + 1) with n0 by lia. now rewrite Z.mod_same by lia. }
    rewrite E0. reflexivity.
Qed.
Print Assumptions C26_innermost_answers.

(** Mounting more archives changes nothing for paths that are not at or below the new mount points; only the listing of the folder that
    gets a new mount point changes as well. *)
Theorem C26_only_below {U} (default : minfo U) se tr t t' loc v :
  valid t -> valid t' -> extends t t' -> Forall proper_name loc -> untouched t t' loc ->
  a_lookup default t' (written loc) v = a_lookup default t (written loc) v /\
  a_versions default t' (written loc) = a_versions default t (written loc) /\
  ((forall n i, mounted_at t' (loc ++ [n]) i -> mounted_at t (loc ++ [n]) i) ->
     a_list default se tr t' (written loc) = a_list default se tr t (written loc) /\ a_list_mode default se tr t' (written loc) = a_list_mode default se tr t (written loc)).
Proof.
  intros Hv Hv' He Hp Hu. split; [now apply lookup_untouched|]. split; [now apply versions_untouched|]. intros Hc. now apply list_untouched.
Qed.
Print Assumptions C26_only_below.

(** ** Histories of queries *)
Inductive query := QLookup (loc : location) (v : Z) | QVersions (loc : location) | QList (loc : location) | QTry (loc : location).
Definition q_loc q := match q with QLookup l _ | QVersions l | QList l | QTry l => l end.

Section History.
  Context {U : Type}.
  Variable default : minfo U.
  Variable userdata_depth : finfo U -> Z.
  Variable max_depth : Z.
  Variable lazy strip_extension transform : bool.
  Variable strip_suffix mount_name : str -> str.
  Variable folder_mode : Z -> Z.
  Variable open_nested : source U -> str -> str -> finfo U -> Z -> option (source U).
  Variable name_data : str -> U.
  (** The table of mount points after a query.  [QTry] is one attempt of the walk in the constructor. *)
  Definition after (t : mtable U) (q : query) : mtable U :=
    match q with
    | QLookup l v => fst (call_lookup default userdata_depth max_depth lazy strip_suffix mount_name folder_mode open_nested name_data t (written l) v)
    | QVersions l => fst (call_versions default userdata_depth max_depth lazy strip_suffix mount_name folder_mode open_nested name_data t (written l))
    | QList l => fst (call_list default userdata_depth max_depth lazy strip_extension transform strip_suffix mount_name folder_mode open_nested name_data t (written l))
    | QTry l => fst (try_mount default userdata_depth max_depth strip_suffix mount_name folder_mode open_nested name_data t (written l))
    end.
End History.

(** Whatever is asked, mounted archives stay mounted and the table stays a table of canonical, different mount points: with C26_only_below,
    every query changes only answers at or below the archives it mounts. *)
Theorem C26_history {U} (default root : minfo U) userdata_depth max_depth lazy se tr strip_suffix mount_name folder_mode open_nested name_data :
  canonical_names mount_name ->
  forall earlier later, Forall (fun q => Forall proper_name (q_loc q) /\ q_loc q <> []) (earlier ++ later) ->
  let after := after default userdata_depth max_depth lazy se tr strip_suffix mount_name folder_mode open_nested name_data in
  let t := fold_left after earlier [(written [], root)] in
  let t' := fold_left after later t in
  valid t /\ valid t' /\ extends t t' /\ mounted_at t' [] root.
Proof.
  intros Hc.
  assert (Hstep : forall t q, Forall proper_name (q_loc q) /\ q_loc q <> [] -> valid t ->
    let t' := after default userdata_depth max_depth lazy se tr strip_suffix mount_name folder_mode open_nested name_data t q in valid t' /\ extends t t').
  { intros t q [Hq Hne] Hv. destruct q as [l v|l|l|l]; cbn [q_loc after call_lookup call_versions call_list fst] in *.
    - split; [apply prepare_valid; [assumption| |assumption]; now apply prepare_valid|]. eapply extends_trans; apply prepare_grows.
    - split; [now apply prepare_valid|apply prepare_grows].
    - split; [now apply prepare_valid|apply prepare_grows].
    - split; [now apply try_mount_valid|apply try_mount_grows]. }
  assert (Hrun : forall qs t, Forall (fun q => Forall proper_name (q_loc q) /\ q_loc q <> []) qs -> valid t ->
    let t' := fold_left (after default userdata_depth max_depth lazy se tr strip_suffix mount_name folder_mode open_nested name_data) qs t in valid t' /\ extends t t').
  { induction qs as [|q qs IH]; intros t Hq Hv; cbn [fold_left]; [split; [assumption|apply extends_refl]|].
    inversion Hq as [|? ? H1 H2]; subst. destruct (Hstep t q H1 Hv) as [V E]. destruct (IH _ H2 V) as [V' E']. split; [assumption|]. eapply extends_trans; eassumption. }
  intros earlier later Hq. apply Forall_app in Hq as [H1 H2]. cbv zeta.
  assert (V0 : valid [(written [], root)]).
  { split; [exists root; reflexivity|]. split; [constructor; [intros []|constructor]|]. intros mp [<-|[]]. exists []. split; [constructor|reflexivity]. }
  destruct (Hrun earlier _ H1 V0) as [V1 E1]. destruct (Hrun later _ H2 V1) as [V2 E2]. split; [assumption|]. split; [assumption|]. split; [assumption|].
  apply (extends_get [(written [], root)]); [eapply extends_trans; eassumption|reflexivity].
Qed.
Print Assumptions C26_history.

(** With lazy mounting every path leads, whatever was asked before, into the archive found by following it name by name ([follow]), so
    lookups do not depend on the history.  (For the default options, where an archive is mounted at its own path.) *)
Theorem C26_lazy_partial {U} (default root : minfo U) userdata_depth max_depth se tr strip_suffix folder_mode open_nested name_data :
  0 < max_depth -> mi_depth root = 0 -> (forall f, 0 <= userdata_depth f) ->
  (forall s p r f d s', open_nested s p r f d = Some s' -> rooted userdata_depth s') ->
  forall history, Forall (fun q => Forall proper_name (q_loc q)) history -> Forall (fun q => match q with QTry _ => False | _ => True end) history ->
  forall loc v, Forall proper_name loc ->
  let mount_name p := p in
  let ask := call_lookup default userdata_depth max_depth true strip_suffix mount_name folder_mode open_nested name_data in
  let start := [(written [], root)] in
  let t := fold_left (after default userdata_depth max_depth true se tr strip_suffix mount_name folder_mode open_nested name_data) history start in
  let '(mp, rest, i) := follow (archive_at userdata_depth max_depth strip_suffix folder_mode open_nested name_data) [] [] root loc in
  innermost (fst (ask t (written loc) v)) loc mp rest i /\
  snd (ask t (written loc) v) = a_lookup default (fst (ask t (written loc) v)) (written loc) v /\
  snd (ask t (written loc) v) = snd (ask start (written loc) v).
Proof.
  intros Hm Hr Hud Hor history Hh Hnt loc v Hp mount_name ask start t.
  pose (cons := consistent userdata_depth max_depth strip_suffix folder_mode open_nested name_data root).
  pose (prep := prepare default userdata_depth max_depth true strip_suffix mount_name folder_mode open_nested name_data).
  assert (Hprep : forall t l, cons t -> Forall proper_name l -> cons (prep t (written l)) /\
    exists a b j, follow (archive_at userdata_depth max_depth strip_suffix folder_mode open_nested name_data) [] [] root l = (a, b, j) /\ innermost (prep t (written l)) l a b j).
  { intros t0 l Hc Hl. unfold prep. rewrite prepare_written by (assumption || apply Hc).
    replace (max_depth =? 0) with false by (symmetry; apply Z.eqb_neq; lia). cbn [negb andb].
    pose proof (mount_along_follows default userdata_depth max_depth strip_suffix mount_name folder_mode open_nested name_data (fun p => eq_refl) Hud Hor root l t0 [] [] root Hc) as X.
    cbn [app] in X. apply X; [assumption| |reflexivity]. apply innermost_self. apply Hc. }
  assert (Hask : forall t0 l w, ask t0 (written l) w = (prep (prep t0 (written l)) (written l), a_lookup_with default (prep t0 (written l)) (written l) w (Z.of_nat (a_versions default (prep (prep t0 (written l)) (written l)) (written l))))) by reflexivity.
  assert (C0 : cons start).
  { split; [|split; [reflexivity|]].
    - split; [exists root; reflexivity|]. split; [constructor; [intros []|constructor]|]. intros mp [<-|[]]. exists []. split; [constructor|reflexivity].
    - intros l i Hl M. unfold mounted_at, start in M. cbn [dget] in M. destruct (str_eqb_spec (written l) (written [])) as [E|]; [|discriminate]. apply written_inj in E; [|assumption|constructor]. subst l. injection M as <-.
      split; [reflexivity|]. split; [lia|congruence]. }
  assert (Ct : cons t).
  { unfold t. clear -Hh Hnt Hprep C0. revert C0. generalize start. induction history as [|q qs IH]; intros t0 C0; [assumption|]. cbn [fold_left].
    inversion Hh as [|? ? H1 H2]; subst. inversion Hnt as [|? ? N1 N2]; subst. apply IH; [assumption|assumption|].
    destruct q as [l w|l|l|l]; [| | |destruct N1]; cbn [q_loc] in H1.
    - change (cons (prep (prep t0 (written l)) (written l))). now repeat apply Hprep.
    - change (cons (prep t0 (written l))). now apply Hprep.
    - change (cons (prep t0 (written l))). now apply Hprep. }
  destruct (Hprep t loc Ct Hp) as (C1 & a & b & j & Hf & I1). rewrite Hf.
  destruct (Hprep _ loc C1 Hp) as (C2 & a2 & b2 & j2 & Hf2 & I2). rewrite Hf in Hf2. injection Hf2 as <- <- <-.
  destruct (Hprep start loc C0 Hp) as (D1 & a2 & b2 & j2 & Hf2 & J1). rewrite Hf in Hf2. injection Hf2 as <- <- <-.
  destruct (Hprep _ loc D1 Hp) as (D2 & a2 & b2 & j2 & Hf2 & J2). rewrite Hf in Hf2. injection Hf2 as <- <- <-.
  assert (Same : forall x y, cons x -> cons y -> innermost x loc a b j -> innermost y loc a b j -> a_versions default y (written loc) = a_versions default x (written loc) /\ forall v n, a_lookup_with default y (written loc) v n = a_lookup_with default x (written loc) v n).
  { intros x y Cx Cy Ix Iy. apply (same_answers default x y loc a b j); [apply Cx|apply Cy|assumption|assumption|assumption|].
    destruct Cx as (_ & Mx & _), Cy as (_ & My & _). intros r. unfold mounted_at in *. rewrite Mx, My. reflexivity. }
  rewrite !Hask. cbn [fst snd]. split; [assumption|]. split.
  - unfold a_lookup. symmetry. apply (Same _ _ C1 C2 I1 I2).
  - destruct (Same _ _ D1 C1 J1 I1) as [_ ->]. destruct (Same _ _ D2 C2 J2 I2) as [-> _]. reflexivity.
Qed.
Print Assumptions C26_lazy_partial.

(** ** C27: what mounting adds *)
(** In the listing of a folder, mounted archives appear as the folders they are mounted as, and every other entry stays as it is. *)
Theorem C27_list_partial {U} (default : minfo U) se tr t loc mp rest i d : valid t -> Forall proper_name loc -> innermost t loc mp rest i ->
  s_list (mi_source i) (written rest) = LDict d -> d <> [] ->
  exists d', a_list default se tr t (written loc) = LDict d' /\
    forall n, proper_name n ->
      (forall j, mounted_at t (loc ++ [n]) j -> dget str_eqb d' n = Some (mi_root j)) /\
      ((forall j, ~ mounted_at t (loc ++ [n]) j) -> dget str_eqb d' n = dget str_eqb d n).
Proof.
  intros Hv Hp Hi Hs Hd. destruct (list_dict default se tr t loc mp rest i d Hv Hp Hi Hs Hd) as (d' & E & H). exists d'. split; [assumption|]. intros n Hn. rewrite (H n Hn). unfold mounted_at.
  split; [now intros j ->|]. intros Hno. destruct (dget str_eqb t (written (loc ++ [n]))) as [j|]; [now destruct (Hno j)|reflexivity].
Qed.
Print Assumptions C27_list_partial.
Theorem C27_list_mode_partial {U} (default : minfo U) se tr t loc mp rest i d : valid t -> Forall proper_name loc -> innermost t loc mp rest i ->
  s_list_mode (mi_source i) (written rest) = LDict d -> d <> [] ->
  exists d', a_list_mode default se tr t (written loc) = LDict d' /\
    forall n, proper_name n ->
      (forall j, mounted_at t (loc ++ [n]) j -> dget str_eqb d' n = Some (Z.lor (fi_mode (mi_root j)) 64)) /\
      ((forall j, ~ mounted_at t (loc ++ [n]) j) -> dget str_eqb d' n = dget str_eqb d n).
Proof.
  intros Hv Hp Hi Hs Hd. destruct (list_mode_dict default se tr t loc mp rest i d Hv Hp Hi Hs Hd) as (d' & E & H). exists d'. split; [assumption|]. intros n Hn. rewrite (H n Hn). unfold mounted_at.
  split; [now intros j ->|]. intros Hno. destruct (dget str_eqb t (written (loc ++ [n]))) as [j|]; [now destruct (Hno j)|reflexivity].
Qed.
Print Assumptions C27_list_mode_partial.
(** Listings that are only names: with renamed mount points exactly their names are added. *)
Theorem C27_list_names {U} (default : minfo U) se tr t loc mp rest i ns : valid t -> Forall proper_name loc -> innermost t loc mp rest i ->
  s_list (mi_source i) (written rest) = LNames ns -> ns <> [] ->
  forall n, In n (names_of (a_list default se tr t (written loc))) <-> In n ns \/ ((se || tr = true) /\ exists j, proper_name n /\ mounted_at t (loc ++ [n]) j).
Proof.
  intros Hv Hp Hi Hs Hd n. unfold a_list. rewrite (simply_find_innermost t loc mp rest i) by assumption. rewrite (at_mount_innermost default t loc mp rest i) by assumption.
  rewrite filter_here, Hs. destruct ns as [|x ns]; [congruence|]. destruct (se || tr); cbn [names_of].
  - rewrite in_app_iff, here_names by assumption. firstorder.
  - intuition discriminate.
Qed.
Print Assumptions C27_list_names.

(** The versions of the path of a mounted archive: the versions of the archive file in the outermost source, oldest first, then the folder. *)
Theorem C27_versions_partial {U} (default root : minfo U) t mp i vs : valid t -> Forall proper_name mp -> mp <> [] -> mounted_at t mp i -> mounted_at t [] root ->
  s_versions (mi_source i) $"/" = 1%nat -> numbered (written mp) (mi_source root) vs -> vs <> [] ->
  a_versions default t (written mp) = S (length vs) /\
  a_lookup default t (written mp) 0 = Some (written mp, mi_root i) /\
  a_lookup default t (written mp) (Z.of_nat (S (length vs))) = Some (written mp, mi_root i) /\
  forall v, 1 <= v <= Z.of_nat (length vs) -> a_lookup default t (written mp) v = option_map (pair $"/") (pick vs v).
Proof.
  intros Hv Hp Hne M R H1 [Hn Hl] Hvs. assert (Hk : (0 < length vs)%nat) by (destruct vs; [congruence|cbn; lia]).
  assert (Ev : a_versions default t (written mp) = S (length vs)).
  { unfold a_versions. rewrite (simply_find_innermost t mp mp [] i) by (assumption || now apply innermost_self).
    unfold at_mount. unfold mounted_at in M, R. rewrite M. change ($"/") with (written []). rewrite R.
    destruct (str_eqb_spec (written mp) (written [])) as [E|]; [apply written_inj in E; [congruence|assumption|constructor]|].
    cbn [negb andb]. change (str_eqb (written []) (written [])) with true. cbv iota. change ($"/") with (written []) in H1. rewrite H1, Hn. reflexivity. }
  assert (L : forall v, a_lookup default t (written mp) v = let w := normalize_version v (Z.of_nat (S (length vs))) in
    if w =? 0 then Some (written mp, mi_root i) else if Z.of_nat (length vs) <? w then option_map (pair (written mp)) (s_lookup (mi_source i) $"/" (w - Z.of_nat (length vs))) else option_map (pair $"/") (pick vs (w mod Z.of_nat (length vs)))).
  { intros v. unfold a_lookup, a_lookup_with. rewrite Ev. rewrite (simply_find_innermost t mp mp [] i) by (assumption || now apply innermost_self).
    unfold at_mount. unfold mounted_at in M, R. rewrite M. change ($"/") with (written []). rewrite R.
    destruct (str_eqb_spec (written mp) (written [])) as [E|]; [apply written_inj in E; [congruence|assumption|constructor]|].
    cbn [negb andb]. change (str_eqb (written []) (written [])) with true. cbv iota. cbn [negb]. rewrite Hn, Bool.andb_true_r.
    cbv zeta. set (w := normalize_version v (Z.of_nat (S (length vs)))).
    replace (Z.of_nat (S (length vs)) <=? 1) with false by (symmetry; apply Z.leb_gt; lia). cbn [orb]. rewrite Hl.
    destruct (w =? 0); [reflexivity|]. reflexivity. }
  split; [assumption|]. split; [|split].
  - rewrite L. cbv zeta. replace (normalize_version 0 (Z.of_nat (S (length vs)))) with 0; [reflexivity|].
    unfold normalize_version. replace (1 <? Z.of_nat (S (length vs))) with true by (symmetry; apply Z.ltb_lt; lia). set (n := Z.of_nat (S (length vs))).
    replace ((0 - 1) mod n) with (n - 1) by (apply (Z.mod_unique _ _ (-1)); lia). replace (n - 1 + 1) with n by lia. now rewrite Z.mod_same by lia.
  - rewrite L. cbv zeta. set (n := Z.of_nat (S (length vs))). replace (normalize_version n n) with 0; [reflexivity|].
    unfold normalize_version. replace (1 <? n) with true by (symmetry; apply Z.ltb_lt; lia). rewrite (Z.mod_small (n - 1)) by lia. replace (n - 1 + 1) with n by lia. now rewrite Z.mod_same by lia.
  - intros v Hr. rewrite L. cbv zeta. set (n := Z.of_nat (S (length vs))). replace (normalize_version v n) with v.
    2:{ unfold normalize_version. replace (1 <? n) with true by (symmetry; apply Z.ltb_lt; lia). rewrite (Z.mod_small (v - 1)) by lia. replace (v - 1 + 1) with v by lia. now rewrite Z.mod_small by lia. }
    replace (v =? 0) with false by (symmetry; apply Z.eqb_neq; lia). replace (Z.of_nat (length vs) <? v) with false by (symmetry; apply Z.ltb_ge; lia).
    destruct (Z.eq_dec v (Z.of_nat (length vs))) as [->|].
    + rewrite Z.mod_same by lia. pose proof (pick_range vs (Z.of_nat (length vs))) as X. unfold normalize_version in X.
      destruct (Z.ltb_spec 1 (Z.of_nat (length vs))).
      * rewrite (Z.mod_small (_ - 1)) in X by lia. replace (Z.of_nat (length vs) - 1 + 1) with (Z.of_nat (length vs)) in X by lia. rewrite Z.mod_same in X by lia. now rewrite X by lia.
      * destruct vs as [|x [|y vs']]; [congruence|reflexivity|cbn [length] in *; lia].
    + now rewrite Z.mod_small by lia.
Qed.
Print Assumptions C27_versions_partial.

(** The walk over all folders in the constructor (for any number of rounds) leaves such a table as well. *)
Theorem C26_walk {U} (default root : minfo U) userdata_depth max_depth se tr strip_suffix mount_name folder_mode open_nested name_data rounds :
  canonical_names mount_name -> proper_listings (mi_source root) ->
  (forall s p r f d s', open_nested s p r f d = Some s' -> proper_listings s') ->
  let t := walk default userdata_depth max_depth se tr strip_suffix mount_name folder_mode open_nested name_data rounds [(written [], root)] [$"/"] in
  valid t /\ mounted_at t [] root.
Proof.
  intros Hc Hr Ho. cbv zeta.
  destruct (walk_ok default userdata_depth max_depth se tr strip_suffix mount_name folder_mode open_nested name_data Hc Ho rounds [(written [], root)] [$"/"]) as [[V _] E].
  - split.
    + split; [exists root; reflexivity|]. split; [constructor; [intros []|constructor]|]. intros mp [<-|[]]. exists []. split; [constructor|reflexivity].
    + intros k i [X|[]]. injection X as <- <-. assumption.
  - constructor; [|constructor]. exists []. split; [constructor|reflexivity].
  - split; [assumption|]. now apply (extends_get [(written [], root)]).
Qed.
Print Assumptions C26_walk.

(** ** An example: /d/x.tar (two versions) contains f and y.tar, which contains g *)
Definition rooted_tree (t : list (location * finfo unit)) : source unit :=
  let s := tree_source t true in
  mkSource (fun p v => if str_eqb p $"/" then Some adir else s_lookup s p v) (fun p => if str_eqb p $"/" then 1%nat else s_versions s p) (s_list s) (s_list_mode s) true.
Definition outer := rooted_tree [([$"d"], adir); ([$"d"; $"x.tar"], afile 1); ([$"d"; $"x.tar"], afile 2); ([$"d"; $"r"], afile 3)].
Definition inner := rooted_tree [([$"f"], afile 4); ([$"y.tar"], afile 5)].
Definition innermost_tree := rooted_tree [([$"g"], afile 6)].
Definition no_tar (p : str) : str := if ends_with $".tar" p then firstn (length p - 4) p else p.
Definition opens (s : source unit) (path rest : str) (f : finfo unit) (d : Z) : option (source unit) :=
  if str_eqb path $"/d/x.tar" then Some inner else if str_eqb path $"/d/x.tar/y.tar" then Some innermost_tree else None.
Definition aroot : minfo unit := mkM outer adir 0.
Definition ask_lazily d := call_lookup aroot (fun _ => 0) d true no_tar (fun p => p) (fun m => Z.lor 16384 (m mod 4096)) opens (fun _ => tt).
Definition start : mtable unit := [($"/", aroot)].

Example C26_example :
  let t := fst (ask_lazily 5 start $"/d/x.tar/y.tar/g" 0) in
  dkeys t = [$"/"; $"/d/x.tar"; $"/d/x.tar/y.tar"] /\
  snd (ask_lazily 5 start $"/d/x.tar/y.tar/g" 0) = Some ($"/d/x.tar/y.tar", afile 6) /\
  snd (ask_lazily 1 start $"/d/x.tar/y.tar/g" 0) = None /\
  snd (ask_lazily 1 start $"/d/x.tar/f" 0) = Some ($"/d/x.tar", afile 4) /\
  a_versions aroot t $"/d/x.tar" = 3%nat /\ a_lookup aroot t $"/d/x.tar" 1 = Some ($"/", afile 1) /\ a_lookup aroot t $"/d/x.tar" 2 = Some ($"/", afile 2) /\
  map fst (match a_list aroot false false t $"/d" with LDict d => d | _ => [] end) = [$"x.tar"; $"r"] /\
  dkeys (walk aroot (fun _ => 0) 5 false false no_tar (fun p => p) (fun m => m) opens (fun _ => tt) 10 start [$"/"]) = [$"/"; $"/d/x.tar"; $"/d/x.tar/y.tar"].
Proof. vm_compute. repeat split; reflexivity. Qed.
Example C26_example_hypotheses :
  canonical_names (fun p : str => p) /\ (forall s p r f d s', opens s p r f d = Some s' -> rooted (fun _ => 0) s') /\
  (forall s p r f d s', opens s p r f d = Some s' -> proper_listings s') /\ proper_listings outer.
Proof.
  split; [intros loc H _; now exists loc|]. split; [|split].
  - intros s p r f d s'. unfold opens. destruct (str_eqb _ _); [intros [= <-]; now exists adir|]. destruct (str_eqb _ _); [intros [= <-]; now exists adir|discriminate].
  - assert (Hi : proper_listings inner /\ proper_listings innermost_tree).
    { split; intros p n H; [apply (tree_names [([$"f"], afile 4); ([$"y.tar"], afile 5)] true) in H|apply (tree_names [([$"g"], afile 6)] true) in H]; destruct H as (dd & i & H & _);
      repeat (destruct H as [H|H]; [injection H as H _; destruct dd as [|? [|]]; try discriminate; injection H as <-; proper_names|]); destruct H. }
    intros s p r f d s'. unfold opens. destruct (str_eqb _ _); [intros [= <-]; apply Hi|]. destruct (str_eqb _ _); [intros [= <-]; apply Hi|discriminate].
  - intros p n H. apply (tree_names [([$"d"], adir); ([$"d"; $"x.tar"], afile 1); ([$"d"; $"x.tar"], afile 2); ([$"d"; $"r"], afile 3)] true) in H. destruct H as (dd & i & H & _).
    repeat (destruct H as [H|H]; [injection H as H _; destruct dd as [|? [|? [|]]]; try discriminate; injection H; intros; subst; proper_names|]). destruct H.
Qed.

(** ** What does not hold *)
(** Version numbers wrap around instead of leading nowhere. *)
Theorem C27_versions_refuted : exists (t : mtable unit) v f, valid t /\ a_versions aroot t $"/d/r" = 1%nat /\ a_versions aroot t $"/d/x.tar" = 3%nat /\
  v = 4 /\ a_lookup aroot t $"/d/x.tar" v = Some ($"/", f).
Proof.
  exists [(written [], aroot); (written [$"d"; $"x.tar"], mkM inner adir 1)], 4, (afile 1). split.
  - split; [exists aroot; reflexivity|]. split; [repeat constructor; cbn; intuition discriminate|]. intros mp [<-|[<-|[]]]; [exists []; split; [constructor|reflexivity]|exists [$"d"; $"x.tar"]; split; [proper_names|reflexivity]].
  - vm_compute. repeat split; reflexivity.
Qed.
Print Assumptions C27_versions_refuted.
(** An archive inside an archive is hidden by its mount point: only the outermost source is asked for the versions of the archive file. *)
Theorem C27_nested_refuted : exists (t : mtable unit), valid t /\ mounted_at t [$"d"; $"x.tar"] (mkM inner adir 1) /\
  s_versions inner $"/y.tar" = 1%nat /\ s_lookup inner $"/y.tar" 0 = Some (afile 5) /\ a_versions aroot t $"/d/x.tar/y.tar" = 1%nat /\
  forall v f, a_lookup aroot t $"/d/x.tar/y.tar" v = Some f -> snd f = adir.
Proof.
  exists [(written [], aroot); (written [$"d"; $"x.tar"], mkM inner adir 1); (written [$"d"; $"x.tar"; $"y.tar"], mkM innermost_tree adir 2)]. split.
  - split; [exists aroot; reflexivity|]. split; [repeat constructor; cbn; intuition discriminate|].
    intros mp [<-|[<-|[<-|[]]]]; [exists []; split; [constructor|reflexivity]|exists [$"d"; $"x.tar"]; split; [proper_names|reflexivity]|exists [$"d"; $"x.tar"; $"y.tar"]; split; [proper_names|reflexivity]].
  - split; [reflexivity|]. split; [vm_compute; reflexivity|]. split; [vm_compute; reflexivity|]. split; [vm_compute; reflexivity|]. intros v f.
    unfold a_lookup. match goal with |- context [a_versions ?a ?b ?c] => replace (a_versions a b c) with 1%nat by (vm_compute; reflexivity) end.
    unfold a_lookup_with. match goal with |- context [simply_find ?a ?b] => replace (simply_find a b) with ($"/d/x.tar/y.tar", $"/") by (vm_compute; reflexivity) end.
    change (normalize_version v (Z.of_nat 1)) with v. change (Z.of_nat 1 <=? 1) with true. cbn [orb].
    match goal with |- context [at_mount ?d ?t $"/d/x.tar/y.tar"] => change (at_mount d t $"/d/x.tar/y.tar") with (mkM innermost_tree adir 2) end. cbn [mi_root mi_source].
    destruct ((v =? 0) && str_eqb $"/" $"/").
    + intros [= <-]. reflexivity.
    + unfold innermost_tree, rooted_tree. cbn [s_lookup]. change (str_eqb $"/" $"/") with true. cbv iota. intros [= <-]. reflexivity.
Qed.
Print Assumptions C27_nested_refuted.
(** A mounted archive without entries lists as missing rather than empty. *)
Theorem C27_empty_refuted : exists (t : mtable unit) f, valid t /\ a_lookup aroot t $"/d/x.tar" 0 = Some ($"/d/x.tar", f) /\ is_dir_mode (fi_mode f) = true /\
  s_list (mi_source (at_mount aroot t $"/d/x.tar")) $"/" = LDict [] /\ a_list aroot false false t $"/d/x.tar" = LNone.
Proof.
  exists [(written [], aroot); (written [$"d"; $"x.tar"], mkM (mkSource (fun _ _ => Some adir) (fun _ => 1%nat) (fun _ => LDict []) (fun _ => LDict []) true) adir 1)], adir. split.
  - split; [exists aroot; reflexivity|]. split; [repeat constructor; cbn; intuition discriminate|]. intros mp [<-|[<-|[]]]; [exists []; split; [constructor|reflexivity]|exists [$"d"; $"x.tar"]; split; [proper_names|reflexivity]].
  - vm_compute. repeat split; reflexivity.
Qed.
Print Assumptions C27_empty_refuted.
(** With stripped extensions and lazy mounting, an answer depends on what was asked before: /d/x/f exists only after /d/x.tar was visited. *)
Theorem C26_lazy_refuted :
  let ask := call_lookup aroot (fun _ => 0) 5 true no_tar no_tar (fun m => Z.lor 16384 (m mod 4096)) opens (fun _ => tt) in
  snd (ask start $"/d/x/f" 0) = None /\ snd (ask (fst (ask start $"/d/x.tar" 0)) $"/d/x/f" 0) = Some ($"/d/x", afile 4).
Proof. cbv zeta. vm_compute. split; reflexivity. Qed.
Print Assumptions C26_lazy_refuted.
