(** C34: several sources side by side. *)
From Coq Require Import Ascii String.
From Verif Require Import PyBase PyDict PyStr PyInt Path_Model Path_Spec Path_Proofs FileInfo Union_Model
  Subvol_Model Subvol_Spec Subvol_Proofs Multi_Model Multi_Proofs.

(** The table of mount points for names and sources. *)
Definition side_by_side {S} (names : list str) (sources : list S) : table S :=
  combine (map (fun n => [n]) names) sources.

(** C34: mounting sources with proper base names succeeds, every source gets a folder of its own, and below it everything the
    source shows is shown; nothing else is.  A source keeps its base name unless an earlier one has that name already. *)
Theorem C34_side_by_side {U} (sources : list (str * source U)) : Forall proper_name (map fst sources) ->
  exists root names, create_multi_mount sources = Ok root /\
    length names = length sources /\ NoDup names /\
    (forall i key, nth_error (map fst sources) i = Some key -> exists name, nth_error names i = Some name /\
       (name = key /\ ~ In key (firstn i names) \/
        In key (firstn i names) /\ exists n, 1 <= n /\ name = key ++ $"." ++ py_str (Z.of_nat n))) /\
    shows_mounts root (side_by_side names (map snd sources)) /\
    shows_folders root (side_by_side names (map snd sources)) /\
    shows_nothing_else root (side_by_side names (map snd sources)).
Proof.
  intros P. destruct (unique_keys_spec sources [] 1) as (names & E & C); [lia|]. cbn [app dkeys map] in E, C.
  pose proof (chosen_length _ _ _ C) as L. rewrite map_length in L.
  pose proof (chosen_NoDup _ _ _ C (NoDup_nil _)) as ND. cbn [app] in ND.
  pose proof (chosen_proper _ _ _ C P) as Pn.
  assert (map fst (combine names (map snd sources)) = names) as Ek by (apply map_fst_combine; now rewrite map_length).
  destruct (mount_each_spec (combine names (map snd sources)) empty []) as (root & M & R & T).
  - apply related_empty.
  - apply tidy_empty.
  - constructor.
  - now rewrite Ek.
  - now rewrite Ek.
  - intros k _ [].
  - rewrite app_nil_r in R.
    assert (related root (side_by_side names (map snd sources))) as R2.
    { assert (forall x, In x (rev (map (fun e => ([fst e], snd e)) (combine names (map snd sources)))) <->
                        In x (side_by_side names (map snd sources))) as Same.
      { intros x. rewrite <- in_rev. unfold side_by_side.
        replace (map (fun e => ([fst e], snd e)) (combine names (map snd sources)))
          with (combine (map (fun n => [n]) names) (map snd sources)); [reflexivity|].
        generalize (map snd sources) as b. generalize names as a.
        induction a as [|x0 a IH]; intros [|y b]; try reflexivity. cbn. now rewrite IH. }
      destruct R as (R1 & R2 & R3 & R4). split; [exact R1|]. split; [exact R2|]. split.
      - intros mp s. now rewrite R3, Same.
      - intros mp s H. apply (R4 mp s). now apply Same. }
    exists root, names. split; [unfold create_multi_mount; rewrite E; exact M|]. split; [exact L|]. split; [exact ND|]. split.
    { intros i key Ei. exact (chosen_nth _ _ _ C i key Ei). }
    split; [now apply related_shows_mounts|]. split; [now apply related_shows_folders|now apply related_shows_nothing].
Qed.
Print Assumptions C34_side_by_side.

(** C34, in particular: below the name of a source exactly that source answers. *)
Corollary C34_none_is_lost {U} (sources : list (str * source U)) : Forall proper_name (map fst sources) ->
  exists root names, create_multi_mount sources = Ok root /\ NoDup names /\
    forall i key s, nth_error sources i = Some (key, s) -> exists name, nth_error names i = Some name /\
      forall rest v, Forall proper_name rest ->
        sv_lookup (written (name :: rest)) v root = option_map (Inside name) (s_lookup s (written rest) v).
Proof.
  intros P. destruct (C34_side_by_side sources P) as (root & names & E & L & ND & K & S1 & _).
  exists root, names. split; [exact E|]. split; [exact ND|]. intros i key s Ei.
  destruct (K i key) as (name & En & _). { now rewrite nth_error_map, Ei. }
  exists name. split; [exact En|]. intros rest v Pr.
  assert (In ([name], s) (side_by_side names (map snd sources))) as Hin.
  { unfold side_by_side. clear - En Ei. revert sources i En Ei. induction names as [|x names IH]; intros sources i En Ei; [destruct i; discriminate|].
    destruct sources as [|[k0 s0] sources]; [destruct i; discriminate|]. destruct i as [|i]; cbn in *.
    - left. congruence.
    - right. exact (IH sources i En Ei). }
  destruct (S1 [name] s rest Hin Pr) as (X & _). specialize (X v). cbn [app join] in X. exact X.
Qed.
Print Assumptions C34_none_is_lost.

(** Where it fails: base names that are no names ("folder/" has the base name ""; "/" is what the control interface is mounted
    under) make the mount fail. *)
Theorem C34_no_name_refuted {S} (l1 l2 : list (str * S)) k s : denotes k = [] -> ~ In k (map fst l1) ->
  (forall key n, key <> k -> In key (map fst l1) -> k <> suffixed key n) ->
  exists e, create_multi_mount (l1 ++ (k, s) :: l2) = Err e.
Proof.
  intros D F G. unfold create_multi_mount. destruct (unique_keys_spec (l1 ++ (k, s) :: l2) [] 1) as (names & E & C); [lia|].
  rewrite E. cbn [bind app]. rewrite map_app in C. cbn [map fst] in C.
  destruct (mount_each (combine names (map snd (l1 ++ (k, s) :: l2))) empty) as [r|e] eqn:M; [|now exists e].
  exfalso. pose proof (chosen_length _ _ _ C) as L.
  destruct (chosen_nth _ _ _ C (length l1) k) as (name & En & [[-> Nk]|[Nk _]]).
  { rewrite nth_error_app2; rewrite map_length; [|lia]. now rewrite Nat.sub_diag. }
  - assert (In (k, s) (combine names (map snd (l1 ++ (k, s) :: l2)))) as Hin.
    { rewrite map_app. cbn [map snd]. clear - En. revert l1 En. induction names as [|x names IH]; intros [|[k0 s0] l1] En; cbn in *; try discriminate.
      - left. congruence.
      - right. now apply IH. }
    apply (mount_each_bad _ _ _ M k s Hin). now rewrite parent_and_name_spec, D.
  - cbn [dkeys map app] in Nk. apply In_nth_error in Nk as (j & Ej).
    assert (j < length l1) as Lj.
    { assert (j < length (firstn (length l1) names)) by (apply nth_error_Some; congruence). rewrite firstn_length in H. lia. }
    assert (nth_error names j = Some k) as Ej2.
    { clear - Ej Lj. revert l1 names Ej Lj. induction j as [|j IH]; intros [|x l1] [|y names] Ej Lj; cbn in *; try discriminate; try lia; auto. apply (IH l1); [exact Ej|lia]. }
    destruct (nth_error (map fst l1) j) as [kj|] eqn:Ek.
    2:{ apply nth_error_None in Ek. rewrite map_length in Ek. lia. }
    destruct (chosen_nth _ _ _ C j kj) as (name' & En' & Hn').
    { rewrite nth_error_app1; [exact Ek|rewrite map_length; lia]. }
    assert (name' = k) by congruence. subst name'. pose proof (nth_error_In _ _ Ek) as Hk.
    destruct Hn' as [[E1 _]|[_ (n & _ & E1)]]; [subst; contradiction|].
    apply (G kj n); [|exact Hk|exact E1]. intros ->. contradiction.
Qed.
Print Assumptions C34_no_name_refuted.

(** ... so with --disable-union-mount the control interface can never be mounted, whatever the sources. *)
Theorem C34_control_refuted {S} (sources : list (str * S)) control : Forall proper_name (map fst sources) ->
  exists e, create_multi_mount (with_control sources control) = Err e.
Proof.
  intros P. unfold with_control. apply C34_no_name_refuted; [reflexivity| |].
  - intros H. rewrite Forall_forall in P. apply P in H. destruct H as (_ & _ & _ & X). apply X. now left.
  - intros key n _ Hin E. rewrite Forall_forall in P. apply P in Hin. apply (suffixed_proper key n) in Hin. rewrite <- E in Hin.
    destruct Hin as (_ & _ & _ & X). apply X. now left.
Qed.
Print Assumptions C34_control_refuted.

(** ** Examples *)
Definition numbered (l : list string) : list (str * nat) := combine (map list_ascii_of_string l) (seq 1 (length l)).

(** Equal names, and names that look like generated ones. *)
Example C34_example : unique_keys (numbered ["a"; "a.1"; "a"; "a"; "b"; "b"; "b.4"]%string) [] 1 =
  Ok [($"a", 1); ($"a.1", 2); ($"a.2", 3); ($"a.3", 4); ($"b", 5); ($"b.3", 6); ($"b.4", 7)].
Proof. vm_compute. reflexivity. Qed.
Example C34_proper : Forall proper_name (map list_ascii_of_string ["a"; "a.1"; "a"; "a"; "b"; "b"; "b.4"]%string).
Proof. repeat apply Forall_cons; try apply Forall_nil; (split; [discriminate|split; [discriminate|split; [discriminate|]]]); cbn; intuition discriminate. Qed.
Example C34_trailing_slash : create_multi_mount [($"a", 1); ([], 2)] = Err RatarmountError.
Proof. vm_compute. reflexivity. Qed.
