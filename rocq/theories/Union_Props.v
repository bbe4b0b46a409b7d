(** Properties C16 to C19: union mounts. *)
From Coq Require Import Ascii String.
From Verif Require Import PyBase PyDict PyStr Path_Spec Path_Proofs FileInfo Union_Model Union_Spec Union_Proofs Tree_Source.
Local Open Scope Z_scope.

(** ** C16: versions of all sources, in order *)

(** For sources that number their versions consistently, the union numbers the versions of all its sources one after
    the other: the versions of a later source are newer than those of an earlier one; a lookup finds the version, and the
    position of the source it belongs to, exactly if the number is in range. *)
Theorem C16_union_versions :
  forall (U : Type) (sources : list (source U)) (path : str) (vss : list (list (finfo U))),
  strip slash path <> [] ->
  Forall2 (numbered path) sources vss ->
  union_versions sources path = length (all_versions vss) /\
  forall v : Z,
    union_lookup sources [] 0 path v = option_map (fun '(i, info) => Found i info) (pick (all_versions vss) v).
Proof.
  intros U sources path vss Hs H. split; [now apply versions_all|]. intros v. unfold union_lookup.
  destruct (strip slash path) as [|c s] eqn:E; [congruence|]. f_equal. rewrite chosen_all by reflexivity. now apply look_all.
Qed.
Print Assumptions C16_union_versions.

(** The same with the folder cache that the constructor builds, for sources that look like file systems. *)
Theorem C16_union_versions_cached_partial :
  forall (U : Type) (sources : list (source U)) (loc : location) (vss : list (list (finfo U))) (rounds : nat) (stop : nat -> bool),
  (forall m, In m sources -> s_immutable m = true -> coherent m) ->
  no_conflicts (filter s_immutable sources) ->
  Forall proper_name loc -> loc <> [] ->
  Forall2 (numbered (written loc)) sources vss ->
  let '(cache, depth) := build_cache sources rounds stop in
  forall v : Z,
    union_lookup sources cache depth (written loc) v = option_map (fun '(i, info) => Found i info) (pick (all_versions vss) v).
Proof.
  intros U sources loc vss rounds stop Hc Hn Hp Hne Hv. pose proof (build_cache_ok sources Hc rounds stop) as Hb.
  destruct (build_cache sources rounds stop) as [cache depth]. intros v. rewrite <- (look_all (written loc) sources vss v Hv).
  destruct Hb as [Hb|[-> Hb]]; [now apply cached_lookup|].
  unfold union_lookup. destruct (strip slash (written loc)) as [|c s] eqn:E; [|f_equal; now rewrite chosen_all by auto].
  exfalso. rewrite strip_written in E by assumption. now apply (join_nonempty loc).
Qed.
Print Assumptions C16_union_versions_cached_partial.

Definition left_tree : tree unit := [([$"d"], adir); ([$"d"; $"f"], afile 1); ([$"d"; $"f"], afile 2); ([$"x"], afile 3)].
Definition right_tree : tree unit := [([$"d"], adir); ([$"d"; $"f"], afile 4); ([$"e"], adir); ([$"e"; $"g"], afile 5)].
Definition two_sources : list (source unit) := [tree_source left_tree true; tree_source right_tree true].

Example left_well_formed : well_formed left_tree. Proof. well_formed_tree. Qed.
Example right_well_formed : well_formed right_tree. Proof. well_formed_tree. Qed.

Example C16_example :
  Forall2 (numbered $"/d/f") two_sources [[afile 1; afile 2]; [afile 4]] /\
  union_versions two_sources $"/d/f" = 3%nat /\
  map (union_lookup two_sources [] 0 $"/d/f") [-3; -2; -1; 0; 1; 2; 3; 4] =
  [None; Some (Found 0 (afile 1)); Some (Found 0 (afile 2)); Some (Found 1 (afile 4));
   Some (Found 0 (afile 1)); Some (Found 0 (afile 2)); Some (Found 1 (afile 4)); None].
Proof. split; [repeat constructor|split; reflexivity]. Qed.

(** ** C17: names *)

(** A name is listed exactly if some source lists it; there is no listing exactly if no source has one. *)
Theorem C17_union_list_names :
  forall (U : Type) (sources : list (source U)) (path : str),
  (forall n, In n (names_of (union_list sources path)) <-> exists m, In m sources /\ In n (names_of (s_list m path))) /\
  (union_list sources path = LNone <-> forall m, In m sources -> s_list m path = LNone) /\
  (forall n, In n (names_of (union_list_mode sources path)) <-> exists m, In m sources /\ In n (names_of (s_list_mode m path))) /\
  (union_list_mode sources path = LNone <-> forall m, In m sources -> s_list_mode m path = LNone).
Proof.
  intros U sources path. split; [|split; [|split]].
  - intros n. apply (union_names (fun m => s_list m path)).
  - apply (union_none (fun m => s_list m path)).
  - intros n. apply (union_names (fun m => s_list_mode m path)).
  - apply (union_none (fun m => s_list_mode m path)).
Qed.
Print Assumptions C17_union_list_names.

Example C17_example :
  names_of (union_list two_sources $"/") = [$"d"; $"e"; $"x"] /\ names_of (union_list two_sources $"/e") = [$"g"] /\
  union_list two_sources $"/nope" = LNone.
Proof. repeat split. Qed.

(** ** C18: metadata *)

(** Full statement of C18: [dget d n] is what [union_lookup] finds for the entry.  What is listed instead is the entry of
    the first source that has the name. *)
Theorem C18_listed_metadata_partial :
  forall (U : Type) (sources : list (source U)) (path : str),
  Forall (fun m => match s_list m path with LNames _ => False | LNone => True | LDict d => NoDup (dkeys d) end) sources ->
  forall before m after n d info,
  sources = before ++ m :: after ->
  (forall m', In m' before -> ~ In n (names_of (s_list m' path))) ->
  s_list m path = LDict d -> dget str_eqb d n = Some info ->
  exists listed, union_list sources path = LDict listed /\ dget str_eqb listed n = Some info.
Proof.
  intros U sources path Hall before m after n d info -> Hb Hm Hd.
  assert (Hf : first_offer (fun m => s_list m path) n (before ++ m :: after) = Some info).
  { clear Hall. induction before as [|m' before IH]; cbn [first_offer app fold_right].
    - now rewrite Hm, Hd.
    - fold (first_offer (fun m => s_list m path) n (before ++ m :: after)). rewrite IH by (intros m2 H2; apply Hb; now right).
      specialize (Hb m' (or_introl eq_refl)). destruct (s_list m' path) as [|ns|d']; try reflexivity.
      apply (dget_None str_eqb str_eqb_spec) in Hb. now rewrite Hb. }
  destruct (union_dict (fun m => s_list m path) _ Hall) as [[_ H]|(listed & H1 & H2)]; [rewrite H in Hf; discriminate|].
  exists listed. split; [exact H1|]. now rewrite H2.
Qed.
Print Assumptions C18_listed_metadata_partial.

(** With one source for the name (and that source's listing agreeing with its lookup), listing and lookup agree. *)
Theorem C18_single_owner_partial :
  forall (U : Type) (sources : list (source U)) (loc : location) (n : str),
  Forall (fun m => match s_list m (written loc) with LNames _ => False | LNone => True | LDict d => NoDup (dkeys d) end) sources ->
  Forall proper_name (loc ++ [n]) ->
  forall before m after d info,
  sources = before ++ m :: after ->
  (forall m', In m' (before ++ after) -> ~ In n (names_of (s_list m' (written loc))) /\ nothing_at m' (loc ++ [n])) ->
  s_list m (written loc) = LDict d -> dget str_eqb d n = Some info ->
  s_lookup m (written (loc ++ [n])) 0 = Some info ->
  exists listed, union_list sources (written loc) = LDict listed /\ dget str_eqb listed n = Some info /\
    union_lookup sources [] 0 (written (loc ++ [n])) 0 = Some (Found (length before) info).
Proof.
  intros U sources loc n Hall Hp before m after d info E Ho Hm Hd Hl.
  destruct (C18_listed_metadata_partial U sources (written loc) Hall before m after n d info E) as (listed & H1 & H2); auto.
  { intros m' H. apply Ho. apply in_app_iff. now left. }
  exists listed. split; [assumption|]. split; [assumption|].
  unfold union_lookup. destruct (strip slash (written (loc ++ [n]))) as [|c s] eqn:Es.
  { exfalso. rewrite (strip_written (loc ++ [n]) Hp) in Es by (destruct loc; discriminate).
    revert Es. apply join_nonempty; [assumption|destruct loc; discriminate]. }
  rewrite chosen_all by reflexivity. cbn [Z.leb Z.compare]. subst sources. rewrite app_length. cbn [length]. rewrite seq_app.
  cbn [seq]. rewrite combine_app by now rewrite seq_length. cbn [combine]. rewrite rev_app_distr. cbn [rev]. rewrite <- app_assoc.
  assert (G : forall (ms rest : list (nat * source U)), (forall im, In im ms -> nothing_at (snd im) (loc ++ [n])) -> look_back (ms ++ rest) (written (loc ++ [n])) 0 = look_back rest (written (loc ++ [n])) 0).
  { induction ms as [|[j m'] ms IH]; intros rest H; [reflexivity|]. cbn [app look_back]. destruct (H (j, m') (or_introl eq_refl)) as [Hv Hn].
    cbn [snd] in *. rewrite Hn, Hv. cbn. apply IH. intros im Him. apply H. now right. }
  rewrite G.
  - cbn [app look_back]. rewrite Hl. reflexivity.
  - intros [j m'] H. cbn [snd]. apply in_rev in H. apply in_combine_r in H. apply Ho. apply in_app_iff. now right.
Qed.
Print Assumptions C18_single_owner_partial.

Example C18_example :
  exists listed, union_list two_sources $"/" = LDict listed /\ dget str_eqb listed $"x" = Some (afile 3) /\
    union_lookup two_sources [] 0 $"/x" 0 = Some (Found 0 (afile 3)).
Proof.
  apply (C18_single_owner_partial unit two_sources [] $"x") with (before := []) (m := tree_source left_tree true)
    (after := [tree_source right_tree true]) (d := [($"d", adir); ($"x", afile 3)]); try reflexivity.
  - repeat constructor; cbn; intuition discriminate.
  - proper_names.
  - intros m' [<-|[]]. split; [cbn; intuition discriminate|]. apply tree_nothing; [apply right_well_formed|proper_names|].
    intros i H. cbn in H. intuition discriminate.
Qed.

(** C18 is false in general: the same file in two sources is listed with the metadata of the first source and looked up
    with the metadata of the last one. *)
Theorem C18_list_metadata_refuted :
  exists (sources : list (source unit)) (listed : list (str * finfo unit)) (a b : finfo unit),
  Forall coherent sources /\
  union_list sources $"/d" = LDict listed /\ dget str_eqb listed $"f" = Some a /\
  union_lookup sources [] 0 $"/d/f" 0 = Some (Found 1 b) /\ fi_size a <> fi_size b.
Proof.
  exists two_sources, [($"f", afile 2)], (afile 2), (afile 4). split; [|repeat split; discriminate].
  apply Forall_cons; [|apply Forall_cons; [|apply Forall_nil]]; apply tree_coherent; (apply left_well_formed || apply right_well_formed).
Qed.
Print Assumptions C18_list_metadata_refuted.

(** ** C19: the folder cache *)

(** Full statement of C19: for all sources and paths.  Proved: for sources of which the immutable ones look like file
    systems and do not have a file where another has a folder, and for absolute paths in canonical form: no matter how many
    rounds the cache is built for and when the limits strike, the lookup is the one without cache. *)
Theorem C19_cache_transparent_partial :
  forall (U : Type) (sources : list (source U)) (rounds : nat) (stop : nat -> bool),
  (forall m, In m sources -> s_immutable m = true -> coherent m) ->
  no_conflicts (filter s_immutable sources) ->
  let '(cache, depth) := build_cache sources rounds stop in
  forall (loc : location) (v : Z), Forall proper_name loc ->
  union_lookup sources cache depth (written loc) v = union_lookup sources [] 0 (written loc) v.
Proof.
  intros U sources rounds stop Hc Hn. pose proof (build_cache_ok sources Hc rounds stop) as Hb.
  destruct (build_cache sources rounds stop) as [cache depth]. intros loc v Hp.
  destruct loc as [|x r]; [reflexivity|]. assert (Hne : x :: r <> []) by discriminate. revert Hp Hne. generalize (x :: r). clear x r. intros loc Hp Hne.
  unfold union_lookup at 2. destruct (strip slash (written loc)) as [|c s] eqn:E.
  { unfold union_lookup. now rewrite E. }
  rewrite chosen_all by reflexivity.
  destruct Hb as [Hb|[-> Hb]]; [now apply cached_lookup|]. unfold union_lookup. rewrite E. now rewrite chosen_all by auto.
Qed.
Print Assumptions C19_cache_transparent_partial.

Example C19_example :
  (forall m, In m two_sources -> s_immutable m = true -> coherent m) /\ no_conflicts (filter s_immutable two_sources) /\
  build_cache two_sources 5 (fun _ => false) = ([($"/", [0; 1]%nat); ($"/d", [0; 1]%nat); ($"/e", [1%nat])], 1%nat) /\
  chosen two_sources (fst (build_cache two_sources 5 (fun _ => false))) 1 $"/e/g" = [(1%nat, tree_source right_tree true)] /\
  union_lookup two_sources (fst (build_cache two_sources 5 (fun _ => false))) 1 $"/e/g" 0 = Some (Found 1 (afile 5)).
Proof.
  split; [|split; [|repeat split]].
  - intros m [<-|[<-|[]]] _; apply tree_coherent; [apply left_well_formed|apply right_well_formed].
  - intros m1 m2 loc H1 H2 Hne Hp Hf. cbn [two_sources filter s_immutable tree_source] in H1, H2.
    assert (Hl : well_formed left_tree) by apply left_well_formed. assert (Hr : well_formed right_tree) by apply right_well_formed.
    destruct H1 as [<-|[<-|[]]]; apply tree_folder_inv in Hf as (i & Hi & Hd); try assumption; cbn in Hi;
      repeat match type of Hi with _ \/ _ => destruct Hi as [Hi|Hi] | False => destruct Hi end;
      injection Hi as <- <-; try discriminate Hd; destruct H2 as [<-|[<-|[]]];
      first [left; apply tree_folder; [assumption|assumption|eexists; cbn; intuition reflexivity|
               intros i Hi; cbn in Hi; repeat match type of Hi with _ \/ _ => destruct Hi as [Hi|Hi] | False => destruct Hi end; try discriminate Hi; injection Hi as <-; reflexivity]
            |right; apply tree_nothing; [assumption|assumption|intros i Hi; cbn in Hi; intuition discriminate]].
Qed.

(** C19 is false in general: with a folder /a in the first source and a file /a in the second one, the lookup without cache
    finds the file (the second source has precedence), but the cache only knows the source with the folder. *)
Theorem C19_cache_transparent_refuted :
  exists (sources : list (source unit)) (path : str),
  Forall coherent sources /\
  (let '(cache, depth) := build_cache sources 1 (fun _ => false) in
   union_lookup sources cache depth path 0 = Some (Found 0 adir)) /\
  union_lookup sources [] 0 path 0 = Some (Found 1 (afile 7)).
Proof.
  exists [tree_source [([$"a"], adir)] true; tree_source [([$"a"], afile 7)] true], $"/a". split; [|repeat split].
  apply Forall_cons; [|apply Forall_cons; [|apply Forall_nil]]; apply tree_coherent; well_formed_tree.
Qed.
Print Assumptions C19_cache_transparent_refuted.
