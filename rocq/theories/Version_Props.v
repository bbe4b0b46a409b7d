(** The version layer: theorems. *)
From Coq Require Import Ascii String.
From Verif Require Import PyBase PyDict PyStr PyInt Path_Spec Path_Proofs FileInfo Union_Model Union_Spec Tree_Source Version_Model Version_Spec Version_Proofs.
Local Open Scope Z_scope.

(** ** C21: .versions folders *)

(** "P.versions" lists exactly the names 1, ..., n where n is the number of versions of P; P itself may be spelled with versions. *)
Theorem C21_versions_listed {U} (m : source U) steps n :
  parents_exist m -> only_existing_listed m -> good_steps m [] steps -> proper_name n -> ~ exists_at m (map name_of steps ++ [n ++ $".versions"]) ->
  let path := written (flat_map spelled steps ++ [n ++ $".versions"]) in
  let count := s_versions m (written (map name_of steps ++ [n])) in
  v_list m (s_list m) path = LNames (map (fun k => py_str (Z.of_nat k)) (seq 1 count)) /\
  v_list m (s_list_mode m) path = LNames (map (fun k => py_str (Z.of_nat k)) (seq 1 count)).
Proof. exact (list_folder m steps n). Qed.
Print Assumptions C21_versions_listed.

(** The name k in "P.versions" is version k of P, for every k that exists (and nothing for k beyond the last version). *)
Theorem C21_version_lookup {U} (m : source U) mp steps n k vs :
  parents_exist m -> good_steps m [] (steps ++ [AtVersion n k]) -> numbered (written (map name_of steps ++ [n])) m vs -> 1 <= k ->
  v_lookup m mp (written (flat_map spelled steps ++ [n ++ $".versions"; py_str k])) = Ok (option_map VersionOf (nth_error vs (Z.to_nat (k - 1)))).
Proof.
  intros Hp G [_ Hv] Hk. pose proof (lookup_spelled m mp _ Hp G) as L. rewrite flat_map_app, map_app, last_last in L. cbn [flat_map spelled app map name_of version_of] in L.
  rewrite L; [|rewrite existsb_app; cbn; now rewrite orb_true_r]. rewrite Hv. unfold pick. destruct (Z.leb_spec k 0); [lia|reflexivity].
Qed.
Print Assumptions C21_version_lookup.

(** In general a spelled path, with versions anywhere, means the plain path with the version of its last step. *)
Theorem C21_spelled_path {U} (m : source U) mp steps :
  parents_exist m -> only_existing_listed m -> good_steps m [] steps -> existsb (fun s => match s with AtVersion _ _ => true | _ => false end) steps = true ->
  let path := written (flat_map spelled steps) in let plain := written (map name_of steps) in
  v_lookup m mp path = Ok (option_map VersionOf (s_lookup m plain (version_of (last steps (Plain []))))) /\
  v_list m (s_list m) path = s_list m plain /\ v_list m (s_list_mode m) path = s_list_mode m plain.
Proof. intros Hp Ho G Hv. split; [now apply lookup_spelled|now apply list_spelled]. Qed.
Print Assumptions C21_spelled_path.

(** Names below "P.versions" that are not the decimal writing of an integer do not exist. *)
Theorem C21_no_other_names_partial {U} (m : source U) mp steps n x :
  parents_exist m -> only_existing_listed m -> good_steps m [] steps -> proper_name n -> proper_name x ->
  ~ exists_at m (map name_of steps ++ [n ++ $".versions"]) -> (forall k, x <> py_str k) ->
  let path := written (flat_map spelled steps ++ [n ++ $".versions"; x]) in
  v_lookup m mp path = Ok None /\ v_list m (s_list m) path = LNone /\ v_list m (s_list_mode m) path = LNone.
Proof. exact (not_number m mp steps n x). Qed.
Print Assumptions C21_no_other_names_partial.

(** The folder "P.versions" is a folder with the times and owners of P. *)
Theorem C21_versions_folder {U} (m : source U) mp steps n i :
  parents_exist m -> good_steps m [] steps -> proper_name n -> ~ exists_at m (map name_of steps ++ [n ++ $".versions"]) ->
  s_lookup m (written (map name_of steps ++ [n])) 0 = Some i ->
  v_lookup m mp (written (flat_map spelled steps ++ [n ++ $".versions"])) = Ok (Some (VersionsFolder (fi_mtime i) (fi_uid i) (fi_gid i))).
Proof. intros Hp G Hn Hv Hi. rewrite lookup_folder by assumption. now rewrite Hi. Qed.
Print Assumptions C21_versions_folder.

(** A folder d with two versions of the file d/a. *)
Definition vtree : tree unit := [([$"d"], adir); ([$"d"; $"a"], afile 1); ([$"d"; $"a"], afile 2)].
Definition vsrc : source unit := tree_source vtree true.
Lemma vtree_wf : well_formed vtree.
Proof. well_formed_tree. Qed.

Lemma tree_exists {U} (t : tree U) b loc : exists_at (tree_source t b) loc <-> at_path t (written loc) <> [].
Proof.
  unfold exists_at. cbn [s_lookup tree_source]. unfold pick. cbn [Z.leb Z.compare Z.opp Z.to_nat]. split.
  - intros [i H] E. rewrite E in H. discriminate.
  - intros H. destruct (rev (at_path t (written loc))) as [|x r] eqn:E; [|now exists x]. exfalso. apply H. apply (f_equal (@rev _)) in E. now rewrite rev_involutive in E.
Qed.
Lemma tree_exists_In {U} (t : tree U) b loc : well_formed t -> Forall proper_name loc -> (exists_at (tree_source t b) loc <-> exists i, In (loc, i) t).
Proof.
  intros Hw Hp. rewrite tree_exists. split.
  - intros H. destruct (at_path t (written loc)) as [|i r] eqn:E; [congruence|]. exists i. apply (at_path_In t loc i Hw Hp). rewrite E. now left.
  - intros [i H] E. apply (at_path_In t loc i Hw Hp) in H. rewrite E in H. destruct H.
Qed.
(** Every well-formed tree meets the two conditions on sources. *)
Lemma tree_parents {U} (t : tree U) b : well_formed t -> parents_exist (tree_source t b).
Proof.
  intros Hw loc n Hne Hp H. apply (tree_exists_In t b _ Hw Hp) in H as [i H]. apply (tree_exists_In t b _ Hw); [apply Forall_app in Hp; tauto|].
  destruct (Hw _ _ H) as (d & n' & E & _ & Hd). apply app_inj_tail in E as [<- <-]. destruct Hd as [->|[He _]]; [congruence|assumption].
Qed.
Lemma tree_only_existing {U} (t : tree U) b : well_formed t -> only_existing_listed (tree_source t b).
Proof.
  intros Hw loc Hne Hp Hno. assert (E : children t (written loc) = []).
  { destruct (children t (written loc)) as [|[n i] r] eqn:E; [reflexivity|]. exfalso. apply Hno.
    assert (H : In n (map fst (children t (written loc)))) by (rewrite E; now left). apply children_In in H as (d & j & H1 & H2).
    destruct (Hw _ _ H1) as (d' & n' & Ed & Hpd & Hd). apply app_inj_tail in Ed as [<- <-]. apply Forall_app in Hpd as [Hpd _].
    apply written_inj in H2; [subst d|assumption|assumption]. destruct Hd as [->|[He _]]; [congruence|]. now apply (tree_exists_In t b _ Hw). }
  cbn [s_list s_list_mode tree_source]. rewrite E. auto.
Qed.

Example C21_hypotheses_hold : parents_exist vsrc /\ only_existing_listed vsrc /\ good_steps vsrc [] [AtVersion $"d" 1; AtVersion $"a" 2] /\
  numbered (written [$"d"; $"a"]) vsrc [afile 1; afile 2] /\
  v_lookup vsrc (fun _ => $"/") $"/d.versions/1/a.versions/2" = Ok (Some (VersionOf (afile 2))) /\
  v_lookup vsrc (fun _ => $"/") $"/d.versions/1/a.versions/1" = Ok (Some (VersionOf (afile 1))) /\
  v_lookup vsrc (fun _ => $"/") $"/d.versions/1/a.versions/01" = Ok None /\
  v_list vsrc (s_list vsrc) $"/d/a.versions" = LNames [$"1"; $"2"].
Proof.
  split; [apply tree_parents, vtree_wf|]. split; [apply tree_only_existing, vtree_wf|]. split.
  { assert (P : forall x, In x [$"d"; $"a"] -> proper_name x) by (intros x [<-|[<-|[]]]; proper_names).
    apply GVersion; [apply P; cbn; auto|eexists; vm_compute; reflexivity|intros [i H]; vm_compute in H; discriminate|].
    apply GVersion; [apply P; cbn; auto|eexists; vm_compute; reflexivity|intros [i H]; vm_compute in H; discriminate|]. constructor. }
  split; [apply (tree_numbered vtree true)|]. repeat split; vm_compute; reflexivity.
Qed.

(** The full statement also claims that unlisted names do not exist and that there is no versions folder for a path that does not exist.
    Both are false: "0", "-1", ... are not listed but are resolved, and for a missing path the lookup fails with an assertion
    while the listing is an empty folder. *)
Theorem C21_versions_folder_refuted :
  exists (m : source unit), coherent m /\
    v_list m (s_list m) $"/a.versions" = LNames [$"1"; $"2"] /\
    v_lookup m (fun _ => $"/") $"/a.versions/0" = Ok (Some (VersionOf (afile 2))) /\
    v_lookup m (fun _ => $"/") $"/a.versions/-1" = Ok (Some (VersionOf (afile 1))) /\
    v_lookup m (fun _ => $"/") $"/b" = Ok None /\
    v_lookup m (fun _ => $"/") $"/b.versions" = Err AssertionError /\
    v_list m (s_list m) $"/b.versions" = LNames [].
Proof.
  exists (tree_source [([$"a"], afile 1); ([$"a"], afile 2)] true). split; [apply tree_coherent; well_formed_tree|].
  repeat split; vm_compute; reflexivity.
Qed.
Print Assumptions C21_versions_folder_refuted.

(** ** C22: hard links *)

(** Looking up an entry always gives an answer; it is an entry on the chain of link targets starting at the path, at most 128 hops away. *)
Theorem C22_result_on_chain {U} (m : source U) mp path i r :
  s_lookup m path 0 = Some i -> resolve_hard_links m mp path = Some r ->
  exists n p v, (n <= 128)%nat /\ hops m mp n (path, 0, i) (p, v, r) /\ (~ hard_link r \/ n = 128%nat).
Proof.
  intros Hi H. unfold resolve_hard_links in H. rewrite Hi in H. pose proof (resolve_loop_spec m mp 128 path 0 i ltac:(lia)) as S. now rewrite H in S.
Qed.
Print Assumptions C22_result_on_chain.

(** What the user sees: the lookup of an existing entry is an entry of its chain - never an error, never nothing. *)
Theorem C22_lookup_total {U} (m : source U) mp loc i :
  parents_exist m -> loc <> [] -> Forall proper_name loc -> s_lookup m (written loc) 0 = Some i ->
  exists r n p v, v_lookup m mp (written loc) = Ok (Some (VersionOf r)) /\ (n <= 128)%nat /\ hops m mp n (written loc, 0, i) (p, v, r).
Proof.
  intros Hp Hne Hprop Hi. unfold v_lookup. destruct (resolve_hard_links m mp (written loc)) as [r|] eqn:E.
  - destruct (C22_result_on_chain m mp _ i r Hi E) as (n & p & v & H1 & H2 & _). exists r, n, p, v. auto.
  - assert (G : forall loc0, Forall proper_name loc0 -> Forall proper_name loc -> exists_at m (loc0 ++ loc) -> good_steps m loc0 (map Plain loc)).
    { clear E Hi Hne Hprop. induction loc as [|n loc IH]; intros loc0 Hp0 Hpr He; cbn [map]; [constructor|]. inversion Hpr; subst.
      constructor; [assumption| |].
      - apply (parents_exist_app m Hp loc); [destruct loc0; discriminate| |]; rewrite <- app_assoc; [|assumption]. apply Forall_app. split; [assumption|]. now constructor.
      - apply IH; [apply Forall_app; split; [assumption|now constructor]|assumption|]. now rewrite <- app_assoc. }
    assert (S : forall l, flat_map spelled (map Plain l) = l) by (induction l; cbn; congruence).
    assert (N : forall l, map name_of (map Plain l) = l) by (induction l; cbn; congruence).
    pose proof (decode_spelled m (map Plain loc) (G [] (Forall_nil _) Hprop (ex_intro _ i Hi))) as D. rewrite S, N in D. rewrite D by (destruct loc; [congruence|discriminate]).
    assert (V : forall l, version_of (last (map Plain l) (Plain [])) = 0) by (induction l as [|a [|b l] IH]; [reflexivity|reflexivity|exact IH]).
    rewrite V, Hi. exists i, O, (written loc), 0. split; [reflexivity|]. split; [lia|constructor].
Qed.
Print Assumptions C22_lookup_total.

(** A chain of at most 128 links that ends in a non-link resolves to that end. *)
Theorem C22_chain_end {U} (m : source U) mp path i n p v r :
  s_lookup m path 0 = Some i -> hops m mp n (path, 0, i) (p, v, r) -> ~ hard_link r -> (n <= 128)%nat ->
  v_lookup m mp path = Ok (Some (VersionOf r)).
Proof.
  intros Hi Hh Hr Hn. unfold v_lookup, resolve_hard_links. rewrite Hi. pose proof (resolve_loop_spec m mp 128 path 0 i ltac:(lia)) as S.
  destruct (resolve_loop m mp 128 path 0 i) as [r'|].
  - destruct S as (n' & p' & v' & H1 & H2 & H3). destruct (hops_stop m mp n _ _ Hh Hr n' _ H2) as [K1 K2].
    destruct H3 as [H3|H3]; [specialize (K2 H3); congruence|]. assert (n' = n) by lia. clear H3 Hn. subst n'.
    assert (U2 : forall k a b c, hops m mp k a b -> hops m mp k a c -> b = c).
    { clear. induction k as [|k IH]; intros a b c H1 H2; inversion H1; inversion H2; subst; [reflexivity|].
      match goal with A : hop m mp a ?x, B : hop m mp a ?y |- _ => pose proof (hop_det m mp _ _ _ A B); subst end. eapply IH; eassumption. }
    pose proof (U2 n _ _ _ H2 Hh). congruence.
  - destruct S as (n' & p' & v' & i' & H1 & H2 & H3 & H4). exfalso. destruct (hops_dead m mp n' _ _ H2 H4 n _ Hh) as [K1 K2].
    destruct (hops_stop m mp n _ _ Hh Hr n' _ H2) as [K3 _]. assert (n = n') by lia. specialize (K2 H). injection K2 as -> -> ->. contradiction.
Qed.
Print Assumptions C22_chain_end.

(** /l1 -> /l2 -> /f, and a cycle /c <-> /d: the chain of two links resolves to the file, the cycle ends after 128 hops in an entry of the cycle. *)
Definition alink (t : str) : finfo unit := mkInfo 0 0 420 t 0 0 [].
Definition lsrc : source unit :=
  tree_source [([$"f"], afile 7); ([$"l2"], alink $"f"); ([$"l1"], alink $"l2"); ([$"c"], alink $"d"); ([$"d"], alink $"c"); ([$"e"], alink $"missing")] true.
Example C22_hypotheses_hold : s_lookup lsrc $"/l1" 0 = Some (alink $"l2") /\
  hops lsrc (fun _ => $"/") 2 ($"/l1", 0, alink $"l2") ($"/f", 0, afile 7) /\ ~ hard_link (afile 7) /\
  v_lookup lsrc (fun _ => $"/") $"/c" = Ok (Some (VersionOf (alink $"d"))) /\
  v_lookup lsrc (fun _ => $"/") $"/e" = Ok (Some (VersionOf (alink $"missing"))).
Proof.
  split; [vm_compute; reflexivity|]. split.
  { eapply HopsS; [eapply (Hop lsrc _ _ _ _ $"/l2" 0 (alink $"f"))|eapply HopsS; [eapply (Hop lsrc _ _ _ _ $"/f" 0 (afile 7))|constructor]];
      try (vm_compute; reflexivity); try (repeat split; try discriminate; vm_compute; reflexivity); intros H; try discriminate H; reflexivity. }
  split; [intros (H & _); vm_compute in H; discriminate|]. split; vm_compute; reflexivity.
Qed.

(** ** C46: hard links of a path to itself *)
(** Appending a file again as a hard link to itself should give the previous version; with one earlier version it does. *)
Theorem C46_self_link_partial {U} (m : source U) mp path f l :
  numbered path m [f; l] -> hard_link l -> ~ hard_link f -> path_join (mp l) (lstrip slash (fi_linkname l)) = path ->
  v_lookup m mp path = Ok (Some (VersionOf f)).
Proof.
  intros [_ Hn] Hl Hf Hp. apply (C22_chain_end m mp path l 1 path 1 f); [now rewrite Hn| |assumption|lia].
  eapply HopsS; [|constructor]. constructor; auto; try congruence. now rewrite Hn.
Qed.
Print Assumptions C46_self_link_partial.

(** With two earlier versions the oldest one is returned instead of the previous one. *)
Theorem C46_self_link_refuted :
  exists (m : source unit) mp path f1 f2 l, f1 <> f2 /\ numbered path m [f1; f2; l] /\ hard_link l /\ ~ hard_link f1 /\ ~ hard_link f2 /\
    path_join (mp l) (lstrip slash (fi_linkname l)) = path /\ v_lookup m mp path = Ok (Some (VersionOf f1)).
Proof.
  exists (tree_source [([$"a"], afile 1); ([$"a"], afile 2); ([$"a"], alink $"a")] true), (fun _ => $"/"), $"/a", (afile 1), (afile 2), (alink $"a").
  split; [discriminate|]. split; [exact (tree_numbered [([$"a"], afile 1); ([$"a"], afile 2); ([$"a"], alink $"a")] true $"/a")|]. split; [repeat split; discriminate|]. split; [intros (H & _); vm_compute in H; discriminate|].
  split; [intros (H & _); vm_compute in H; discriminate|]. split; vm_compute; reflexivity.
Qed.
Print Assumptions C46_self_link_refuted.
