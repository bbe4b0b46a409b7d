(** C85: a running mount keeps its indexes out of itself.  C86: commands given to a running mount act on what they name. *)
From Coq Require Import Ascii String.
From Verif Require Import PyBase PyStr Path_Model Path_Spec Path_Proofs Own_Spec Own_Model Own_Proofs.

Ltac proper := repeat (apply Forall_cons || apply Forall_nil); repeat split; try discriminate; cbn; intuition discriminate.

(** A path lies in the mount, at the place [rest], exactly if it is recognised so. *)
Theorem C85_own_paths_partial :
  forall base path, Forall proper_name base -> base <> [] -> absolute path -> ~ two_slashes path ->
    (forall sub, path_provided_by_us (written base) path = Some sub <->
                 exists rest, denotes path = base ++ rest /\ sub = join $"/" rest) /\
    (path_provided_by_us (written base) path = None <-> ~ exists rest, denotes path = base ++ rest).
Proof.
  intros base path Hb Hne Ha H2. split.
  - intros sub. now apply provided_iff.
  - pose proof (ours_iff base Hb Hne path Ha H2) as O. unfold ours in O. unfold inside, names_inside in O.
    destruct (path_provided_by_us (written base) path); split; try discriminate.
    + intros H. exfalso. apply H. now apply O.
    + intros _ H. apply O in H. discriminate.
    + reflexivity.
Qed.
Print Assumptions C85_own_paths_partial.

Example C85_own_paths_ex :
  path_provided_by_us (written [$"mnt"; $"x"]) $"/mnt/./y/../x//d/f" = Some $"d/f" /\
  path_provided_by_us (written [$"mnt"; $"x"]) $"/mnt/xy" = None /\
  path_provided_by_us (written [$"mnt"; $"x"]) $"/mnt/x/" = Some [].
Proof. repeat split. Qed.

(** Paths that start with two slashes are not recognised, although Linux treats the slashes as one. *)
Theorem C85_own_paths_refuted :
  ~ (forall base path rest, Forall proper_name base -> base <> [] -> absolute path -> denotes path = base ++ rest ->
       path_provided_by_us (written base) path <> None).
Proof.
  intros H. apply (H [$"mnt"] $"//mnt/f" [$"f"]); try reflexivity; try discriminate; [proper|]. eexists. reflexivity.
Qed.
Print Assumptions C85_own_paths_refuted.

(** The index file given as a plain path is resolved and used unless it lies in the mount itself.  If it does, it is dropped,
    and indexes are kept in memory if no folder is left either. *)
Theorem C85_index_file_partial :
  forall base realpath o given loc,
    Forall proper_name base -> base <> [] -> Forall proper_name loc ->
    io_file o = Some given -> (forall a b, given <> a ++ $"://" ++ b) -> realpath given = written loc ->
    let o' := filter_index_locations (written base) realpath o in
    ((~ exists rest, loc = base ++ rest) -> io_file o' = Some (written loc)) /\
    ((exists rest, loc = base ++ rest) -> io_file o' = match io_folders o' with Some (_ :: _) => None | _ => Some $":memory:" end).
Proof.
  intros base realpath o given loc Hb Hne Hl Ef Hg Er o'. subst o'. rewrite (filter_file_plain _ _ _ _ Ef Hg), Er.
  pose proof (ours_iff base Hb Hne (written loc) (written_abs loc) (written_not_two loc Hl)) as O.
  unfold inside, names_inside in O. rewrite denotes_written in O by assumption. destruct (ours (written base) (written loc)).
  - split; [intros H; exfalso; apply H; now apply O|reflexivity].
  - split; [reflexivity|]. intros H. apply O in H. discriminate.
Qed.
Print Assumptions C85_index_file_partial.

(** Real paths on a system without symbolic links. *)
Definition plain (cwd : str) (p : str) : str := written (denotes (match p with a :: _ => if char_eqb a slash then p else cwd ++ $"/" ++ p | [] => cwd end)).

Example C85_index_file_ex :
  filter_index_locations $"/mnt" (plain $"/home/u") (mkIO (Some $"a.index") (Some [$"/mnt/i"; $"/var//i"])) =
    mkIO (Some $"/home/u/a.index") (Some [$"/var/i"]) /\
  filter_index_locations $"/mnt" (plain $"/mnt/x") (mkIO (Some $"a.index") (Some [$"/mnt/i"])) =
    mkIO (Some $":memory:") (Some []).
Proof. split; reflexivity. Qed.

(** An index file given as a file URL is looked for at a different place: the real path of the URL text. *)
Theorem C85_file_url_refuted :
  ~ (forall base cwd path, Forall proper_name base -> base <> [] -> absolute path -> ~ two_slashes path ->
       (~ exists rest, denotes path = base ++ rest) ->
       io_file (filter_index_locations (written base) (plain cwd) (mkIO (Some ($"file://" ++ path)) None)) = Some (written (denotes path))).
Proof.
  intros H. specialize (H [$"mnt"] $"/" $"/tmp/i"). discriminate H.
  - proper.
  - discriminate.
  - eexists. reflexivity.
  - intros (r & E & _). discriminate.
  - intros (r & E). discriminate.
Qed.
Print Assumptions C85_file_url_refuted.

(** Asking for an index in memory creates an index file named ":memory:" instead. *)
Theorem C85_memory_refuted :
  ~ (forall base cwd folders, Forall proper_name base -> base <> [] ->
       io_file (filter_index_locations (written base) (plain cwd) (mkIO (Some $":memory:") folders)) = Some $":memory:").
Proof. intros H. specialize (H [$"mnt"] $"/" None). discriminate H; [proper|discriminate]. Qed.
Print Assumptions C85_memory_refuted.

(** Of absolute index folders free of symbolic links, exactly those outside of the mount remain, in the same order. *)
Theorem C85_folders_partial :
  forall base realpath o folders,
    Forall proper_name base -> base <> [] -> io_folders o = Some folders ->
    Forall (fun f => absolute f /\ ~ two_slashes f /\ realpath f = written (denotes f)) folders ->
    exists left,
      io_folders (filter_index_locations (written base) realpath o) = Some (map (fun f => written (denotes f)) left) /\
      (exists keep, left = filter keep folders /\
        forall f, In f folders -> keep f = true <-> ~ exists rest, denotes f = base ++ rest).
Proof.
  intros base realpath o folders Hb Hne Ef Hf. rewrite Forall_forall in Hf.
  exists (filter (fun d => negb (ours (written base) d)) folders). split.
  - assert (E : io_folders (filter_index_locations (written base) realpath o)
                = Some (map realpath (filter (fun d => negb (ours (written base) d)) folders))).
    { unfold filter_index_locations. rewrite Ef. destruct (match io_file o with Some _ => _ | None => _ end) as [file hp].
      reflexivity. }
    rewrite E. f_equal. apply map_ext_in. intros f Hi. apply filter_In in Hi as [Hi _]. apply (Hf f Hi).
  - exists (fun d => negb (ours (written base) d)). split; [reflexivity|]. intros f Hi. destruct (Hf f Hi) as (Ha & H2 & _).
    pose proof (ours_iff base Hb Hne f Ha H2) as O. unfold inside, names_inside in O. rewrite negb_true_iff.
    destruct (ours (written base) f); split; try discriminate; try reflexivity.
    + intros H. exfalso. apply H. now apply O.
    + intros _ H. apply O in H. discriminate.
Qed.
Print Assumptions C85_folders_partial.

(** A relative index folder inside the mount is kept. *)
Theorem C85_folders_refuted :
  ~ (forall base cwd folders, Forall proper_name base -> base <> [] ->
       match io_folders (filter_index_locations (written base) (plain cwd) (mkIO None (Some folders))) with
       | Some kept => Forall (fun f => ~ exists rest, denotes f = base ++ rest) kept
       | None => False
       end).
Proof.
  intros H. specialize (H [$"mnt"] $"/mnt" [$"d"]). cbn in H. apply Forall_inv in H.
  - apply H. exists [$"d"]. reflexivity.
  - proper.
  - discriminate.
Qed.
Print Assumptions C85_folders_refuted.

(** Indexes are kept in memory if neither an index file nor a folder is left. *)
Theorem C85_nothing_left :
  forall base realpath folders,
    Forall proper_name base -> base <> [] ->
    Forall (fun f => absolute f /\ ~ two_slashes f /\ exists rest, denotes f = base ++ rest) folders ->
    io_file (filter_index_locations (written base) realpath (mkIO None (Some folders))) = Some $":memory:".
Proof.
  intros base realpath folders Hb Hne Hf. unfold filter_index_locations. cbn [io_file io_folders option_map].
  replace (filter (fun d => negb (ours (written base) d)) folders) with (@nil str); [reflexivity|]. symmetry.
  induction Hf as [|f r (Ha & H2 & Hi) Hr IH]; [reflexivity|]. cbn [filter].
  rewrite (proj2 (ours_iff base Hb Hne f Ha H2) Hi). exact IH.
Qed.
Print Assumptions C85_nothing_left.

(** ** C86 *)

(** A mount happens only if every input is either a URL or absolute, and none of them is recognised as part of the mount. *)
Theorem C86_inputs :
  forall mp shown has mountable a acts sources target,
    parse_command mp shown has mountable a = acts -> In (MountSub sources target) acts ->
    p_sources a = sources ++ [target] /\ has = true /\ mountable target = true /\ sources <> [] /\
    Forall (fun s => (starts_with $"/" s = true \/ exists x y, s = x ++ $"://" ++ y) /\ path_provided_by_us mp s = None) sources.
Proof.
  intros mp shown has mountable a acts sources target E Hi. unfold parse_command in E.
  assert (U : forall l, ~ In (MountSub sources target) (fst (unmount_loop mp l))).
  { induction l as [|p r IH]; [intros []|]. cbn [unmount_loop]. destruct (unmount_loop mp r) as [x y]. cbn [fst] in IH.
    destruct (negb (isabs p)); [intros [H|H]; [discriminate|auto]|].
    destruct (path_provided_by_us mp p) as [sp|]; [|assumption]. destruct (strip slash sp); [assumption|].
    intros [H|H]; [discriminate|auto]. }
  assert (M : forall acts0 lst, mount_action mp has mountable (removelast (p_sources a)) lst = Ok acts0 -> In (MountSub sources target) acts0 ->
     sources = removelast (p_sources a) /\ target = lst /\ has = true /\ mountable target = true /\ sources <> [] /\ existsb (ours mp) sources = false).
  { intros acts0 lst. unfold mount_action. destruct has; [|discriminate]. cbn [negb]. destruct lst; [discriminate|].
    destruct (removelast (p_sources a)) eqn:R; [discriminate|]. destruct (mountable _) eqn:Em; [|discriminate].
    cbn [negb]. destruct (existsb _ _) eqn:Ex; [discriminate|]. intros [= <-] [[= <- <-]|[]]. repeat split; auto. discriminate. }
  unfold process_parsed in E. destruct (p_unmount a).
  { exfalso. destruct (filter _ (p_sources a)) as [|x l] eqn:F; [subst; destruct Hi|]. rewrite <- F in E. clear F.
    destruct (unmount_loop mp (filter _ _)) as [u v] eqn:EU. pose proof (U (filter (fun p => match p with [] => false | _ => true end) (p_sources a))) as U'.
    rewrite EU in U'. cbn [fst] in U'. destruct v; subst; auto. }
  destruct (existsb (fun p => negb (isabs p) && negb (contains $"://" p)) (removelast (p_sources a))) eqn:Ex; [subst; destruct Hi|].
  assert (Fin : forall lst r acts0, rev (p_sources a) = lst :: r -> mount_action mp has mountable (removelast (p_sources a)) lst = Ok acts0 ->
     In (MountSub sources target) acts0 -> p_sources a = sources ++ [target] /\ has = true /\ mountable target = true /\ sources <> [] /\
    Forall (fun s => (starts_with $"/" s = true \/ exists x y, s = x ++ $"://" ++ y) /\ path_provided_by_us mp s = None) sources).
  { intros lst r acts0 Er Em Hin. destruct (M acts0 lst Em Hin) as (Es & Et & Hh & Hm & Hs & Ho).
    assert (P : p_sources a = rev r ++ [lst]) by (rewrite <- (rev_involutive (p_sources a)), Er; reflexivity).
    rewrite P, removelast_last in Es. subst sources target. split; [assumption|]. split; [assumption|]. split; [assumption|]. split; [assumption|].
    rewrite P, removelast_last in Ex. apply Forall_forall. intros s Hin2.
    rewrite existsb_false in Ex, Ho. specialize (Ex s Hin2). specialize (Ho s Hin2). split.
    - unfold isabs in Ex. destruct (starts_with $"/" s); [now left|right]. cbn [negb andb] in Ex. apply negb_false_iff in Ex.
      unfold contains in Ex. apply negb_true_iff in Ex. apply Nat.eqb_neq in Ex.
      clear - Ex. induction s as [|c s IH]; [cbn in Ex; congruence|]. cbn [count_sub] in Ex. destruct (starts_with $"://" (c :: s)) eqn:S.
      + apply starts_with_spec in S as [t S]. exists [], t. exact S.
      + destruct (IH Ex) as (x & y & ->). exists (c :: x), y. reflexivity.
    - unfold ours in Ho. destruct (path_provided_by_us mp s); [discriminate|reflexivity]. }
  destruct (p_commit a); [subst; destruct Hi as [Hi|[]]; discriminate|].
  destruct (rev (p_sources a)) as [|lst r] eqn:Er; [subst; destruct Hi|].
  destruct (contains $"://" lst); [subst; destruct Hi as [Hi|[]]; discriminate|].
  destruct (isabs lst).
  - destruct (path_provided_by_us mp lst) as [sub|]; [|subst; destruct Hi as [Hi|[]]; discriminate].
    destruct (strip slash sub); [subst; destruct Hi as [Hi|[]]; discriminate|].
    destruct (mount_action mp has mountable _ lst) as [acts0|e] eqn:Em; [|subst; destruct Hi]. subst acts. eapply Fin; [reflexivity|eassumption|assumption].
  - destruct (shown lst); [subst; destruct Hi|].
    destruct (mount_action mp has mountable _ lst) as [acts0|e] eqn:Em; [|subst; destruct Hi]. subst acts. eapply Fin; [reflexivity|eassumption|assumption].
Qed.
Print Assumptions C86_inputs.

(** A relative mount point that is free gets mounted there. *)
Theorem C86_mount_relative :
  forall base shown mountable sources target,
    Forall proper_name base -> base <> [] -> sources <> [] ->
    Forall (fun s => absolute s /\ ~ two_slashes s /\ ~ exists rest, denotes s = base ++ rest) sources ->
    target <> [] -> starts_with $"/" target = false -> (forall x y, target <> x ++ $"://" ++ y) ->
    shown target = false -> mountable target = true ->
    parse_command (written base) shown true mountable (mkP false false (sources ++ [target])) = [MountSub sources target].
Proof.
  intros base shown mountable sources target Hb Hne Hs Hf Ht Hrel Hurl Hsh Hm. rewrite Forall_forall in Hf.
  unfold parse_command, process_parsed. cbn [p_unmount p_commit p_sources]. rewrite removelast_last.
  assert (E1 : existsb (fun p => negb (isabs p) && negb (contains $"://" p)) sources = false).
  { apply existsb_false. intros s Hi. destruct (Hf s Hi) as ([r ->] & _). reflexivity. }
  rewrite E1, rev_app_distr. cbn [rev app]. rewrite contains_false by (assumption || discriminate).
  unfold isabs. rewrite Hrel, Hsh. unfold mount_action. cbn [negb].
  destruct target as [|c target]; [congruence|]. destruct sources as [|s sources]; [congruence|]. rewrite Hm. cbn [negb].
  assert (E2 : existsb (ours (written base)) (s :: sources) = false).
  { apply existsb_false. intros x Hi. destruct (Hf x Hi) as (Ha & H2 & Hn). destruct (ours (written base) x) eqn:E; [|reflexivity].
    apply ours_iff in E; [|assumption|assumption|assumption|assumption]. contradiction. }
  rewrite E2. reflexivity.
Qed.
Print Assumptions C86_mount_relative.

Example C86_mount_relative_ex :
  parse_command $"/mnt/x" (fun _ => false) true (fun _ => true) (mkP false false [$"/data/a.tar"; $"/mnt/xy/b.tar"; $"sub/dir"])
  = [MountSub [$"/data/a.tar"; $"/mnt/xy/b.tar"] $"sub/dir"].
Proof. reflexivity. Qed.

(** An absolute mount point inside the mount is not taken relative to the mount: it is mounted at the full path below the mount. *)
Theorem C86_mount_absolute_refuted :
  ~ (forall base shown mountable sources target rest acts s t,
       Forall proper_name base -> base <> [] -> absolute target -> ~ two_slashes target ->
       denotes target = base ++ rest -> rest <> [] ->
       parse_command (written base) shown true mountable (mkP false false (sources ++ [target])) = acts ->
       In (MountSub s t) acts -> denotes t = rest).
Proof.
  intros H. specialize (H [$"mnt"] (fun _ => false) (fun _ => true) [$"/a.tar"] $"/mnt/sub" [$"sub"] [MountSub [$"/a.tar"] $"/mnt/sub"] [$"/a.tar"] $"/mnt/sub").
  discriminate H.
  - proper.
  - discriminate.
  - eexists. reflexivity.
  - intros (r & E & _). discriminate.
  - reflexivity.
  - discriminate.
  - reflexivity.
  - now left.
Qed.
Print Assumptions C86_mount_absolute_refuted.

(** Where the mounts to remove lie: [Inner sub] in this mount, else elsewhere. *)
Definition inner_of (base : location) (p : str) (sub : option str) : Prop :=
  (starts_with $"/" p = false /\ sub = Some p) \/
  (absolute p /\ ~ two_slashes p /\ exists rest, denotes p = base ++ rest /\ rest <> [] /\ sub = Some (join $"/" rest)) \/
  (absolute p /\ ~ two_slashes p /\ (forall rest, denotes p = base ++ rest -> rest = []) /\ sub = None).

(** Unmounting removes exactly the mounts named inside this mount, in the given order. *)
Theorem C86_unmount_partial :
  forall base shown has mountable points subs,
    Forall proper_name base -> base <> [] -> points <> [] -> Forall (fun p => p <> []) points ->
    Forall2 (inner_of base) points subs ->
    parse_command (written base) shown has mountable (mkP true false points)
      = map UnmountSub (flat_map (fun s => match s with Some x => [x] | None => [] end) subs).
Proof.
  intros base shown has mountable points subs Hb Hne Hp Hn HF.
  assert (L : fst (unmount_loop (written base) points) = map UnmountSub (flat_map (fun s => match s with Some x => [x] | None => [] end) subs)).
  { clear Hp Hn. induction HF as [|p s ps ss Hi HF IH]; [reflexivity|]. cbn [unmount_loop flat_map].
    destruct (unmount_loop (written base) ps) as [acts args] eqn:E. cbn [fst] in IH. subst acts. rewrite map_app.
    destruct Hi as [[Hr ->]|[(Ha & H2 & rest & Hd & Hre & ->)|(Ha & H2 & Hd & ->)]].
    - unfold isabs. rewrite Hr. reflexivity.
    - assert (A : isabs p = true) by (destruct Ha as [r ->]; reflexivity). rewrite A. cbn [negb].
      assert (P : path_provided_by_us (written base) p = Some (join $"/" rest)) by (apply provided_iff; auto; now exists rest).
      rewrite P. assert (Pr : Forall proper_name rest).
      { pose proof (denotes_proper p) as D. rewrite Hd in D. now apply Forall_app in D as [_ D]. }
      destruct (strip slash (join $"/" rest)) eqn:S; [|reflexivity]. apply strip_join in S; [congruence|assumption].
    - assert (A : isabs p = true) by (destruct Ha as [r ->]; reflexivity). rewrite A. cbn [negb].
      destruct (path_provided_by_us (written base) p) as [sub|] eqn:P; [|reflexivity].
      apply provided_iff in P as (rest & D & ->); [|assumption|assumption|assumption|assumption]. rewrite (Hd rest D). reflexivity. }
  unfold parse_command, process_parsed. cbn [p_unmount p_sources].
  assert (F : filter (fun p : str => match p with [] => false | _ => true end) points = points).
  { clear - Hn. induction Hn as [|p ps Hp Hn IH]; [reflexivity|]. cbn [filter]. destruct p; [congruence|]. now rewrite IH. }
  rewrite F. destruct points as [|p ps]; [congruence|]. destruct (unmount_loop _ _) as [acts args]. cbn [fst] in L. subst acts.
  destruct args; reflexivity.
Qed.
Print Assumptions C86_unmount_partial.

Example C86_unmount_ex :
  Forall2 (inner_of [$"mnt"]) [$"a"; $"/mnt/b/c"; $"/other"] [Some $"a"; Some $"b/c"; None] /\
  parse_command $"/mnt" (fun _ => true) true (fun _ => true) (mkP true false [$"a"; $"/mnt/b/c"; $"/other"]) = [UnmountSub $"a"; UnmountSub $"b/c"].
Proof.
  split; [|reflexivity]. constructor; [left; auto|]. constructor; [|constructor; [|constructor]].
  - right. left. split; [eexists; reflexivity|]. split; [intros (r & E & _); discriminate|]. exists [$"b"; $"c"]. repeat split; discriminate.
  - right. right. split; [eexists; reflexivity|]. split; [intros (r & E & _); discriminate|]. split; [intros r E; discriminate|reflexivity].
Qed.

(** Mounts elsewhere are never unmounted: the arguments collected for a separate process are dropped. *)
Theorem C86_unmount_refuted :
  ~ (forall base shown has mountable p, Forall proper_name base -> base <> [] -> absolute p -> ~ two_slashes p ->
       (~ exists rest, denotes p = base ++ rest) ->
       parse_command (written base) shown has mountable (mkP true false [p]) <> []).
Proof.
  intros H. apply (H [$"mnt"] (fun _ => true) true (fun _ => true) $"/other").
  - proper.
  - discriminate.
  - eexists. reflexivity.
  - intros (r & E & _). discriminate.
  - intros (r & E). discriminate.
  - reflexivity.
Qed.
Print Assumptions C86_unmount_refuted.
