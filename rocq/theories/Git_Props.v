(** C88: the files of a git commit.  C89: git:// and file:// URLs and the default reference. *)
From Coq Require Import Ascii String.
From Verif Require Import PyBase PyDict PyStr FileInfo Path_Model Path_Spec Path_Proofs Hash_Proofs Git_Model Git_Spec Git_Proofs.
Local Open Scope Z_scope.

(** A commit with a file, a link, a submodule and two folders. *)
Definition ex_commit : gobj :=
  GTree [($"README", GBlob false $"hello"); ($"lib", GModule);
         ($"src", GTree [($"a.py", GBlob false $"pass"); ($"latest", GBlob true $"a.py"); ($"sub", GTree [($"b", GBlob false [])])])].
Definition ex_decode (s : str) : res str := if existsb (char_eqb "!") s then Err UnicodeError else Ok s.
Definition ex_git : git := mkGit ex_commit [] 1000.

(** The paths of the commit are found, as what they are; paths may be written with any number of slashes, and a prefix is
    taken into account. *)
Theorem C88_lookup :
  forall (decode : str -> res str) uid gid tree prefix time path o,
    object_at tree (components prefix ++ components path) = Some o ->
    (forall d, o = GBlob true d -> exists t, decode d = Ok t) ->
    exists i, git_lookup decode uid gid (mkGit tree prefix time) path = Ok (Some i) /\
      fi_mode i = kind_mode o /\ fi_size i = shown_size o /\ fi_mtime i = time /\ fi_uid i = uid /\ fi_gid i = gid /\
      (forall d, o = GBlob true d -> decode d = Ok (fi_linkname i)) /\
      (forall d, o = GBlob false d -> fi_linkname i = []) /\
      git_exists (mkGit tree prefix time) path = true.
Proof.
  intros decode uid gid tree prefix time path o H Hd. set (g := mkGit tree prefix time).
  assert (E : look_up_path g path = Some o) by (apply path_found; exact H).
  unfold git_lookup, git_exists. rewrite E. unfold git_info. destruct o as [es|[] d|].
  2: destruct (Hd d eq_refl) as [t Ht]; rewrite Ht.
  all: eexists; split; [reflexivity|]; cbn [fi_mode fi_size fi_mtime fi_uid fi_gid fi_linkname]; rewrite git_mode_kind;
    repeat split; intros; congruence.
Qed.
Print Assumptions C88_lookup.

Example C88_lookup_ex :
  object_at ex_commit (components [] ++ components $"/src//latest") = Some (GBlob true $"a.py") /\
  git_lookup ex_decode 1 2 ex_git $"/src//latest" = Ok (Some (mkInfo 4 1000 (40960 + 365) $"a.py" 1 2 [$"/src//latest"])).
Proof. split; reflexivity. Qed.

(** Paths that the commit does not have are not found, provided that they do not go through a file. *)
Theorem C88_missing_partial :
  forall (decode : str -> res str) uid gid tree prefix time path,
    object_at tree (components prefix ++ components path) = None ->
    only_folders_before tree (components prefix ++ components path) ->
    git_lookup decode uid gid (mkGit tree prefix time) path = Ok None /\
    git_list decode uid gid (mkGit tree prefix time) path = Ok None /\
    git_list_mode (mkGit tree prefix time) path = None /\
    git_exists (mkGit tree prefix time) path = false.
Proof.
  intros decode uid gid tree prefix time path H Hf. unfold git_lookup, git_exists, git_list, git_list_mode.
  rewrite look_up_path_components. cbn [g_tree g_prefix]. rewrite (look_up_missing _ _); [now repeat split| |assumption|assumption].
  apply Forall_app; split; apply components_nonempty.
Qed.
Print Assumptions C88_missing_partial.

Example C88_missing_ex :
  object_at ex_commit (components [] ++ components $"/src/none") = None /\
  only_folders_before ex_commit (components [] ++ components $"/src/none").
Proof.
  split; [reflexivity|]. change (components [] ++ components $"/src/none") with [$"src"; $"none"].
  intros [|x a] b o E Hb Ho.
  - injection Ho as <-. now eexists.
  - destruct a as [|y a]; [injection E as <- <-; injection Ho as <-; now eexists|].
    destruct a; [|discriminate]. injection E as <- <- <-. congruence.
Qed.

(** A path through a file is "found": it shows the file. *)
Theorem C88_missing_refuted :
  ~ (forall (decode : str -> res str) uid gid tree prefix time path,
       proper_tree tree -> object_at tree (components prefix ++ components path) = None ->
       git_lookup decode uid gid (mkGit tree prefix time) path = Ok None).
Proof.
  intros H. specialize (H ex_decode 1 2 (GTree [($"README", GBlob false $"hello")]) [] 1000 $"/README/x"). discriminate H.
  - constructor; [repeat constructor; intros []|]. intros n o [[= <- <-]|[]]. split; [|constructor].
    split; [discriminate|]. split; [discriminate|]. split; [discriminate|]. cbn. intuition discriminate.
  - reflexivity.
Qed.
Print Assumptions C88_missing_refuted.

(** Folders list exactly what is in them, as [lookup] of the entry's path shows it. *)
Theorem C88_list :
  forall (decode : str -> res str) uid gid tree prefix time path es,
    proper_tree tree -> object_at tree (components prefix ++ components path) = Some (GTree es) ->
    (forall n d, In (n, GBlob true d) es -> exists t, decode d = Ok t) ->
    exists l, git_list decode uid gid (mkGit tree prefix time) path = Ok (Some l) /\ map fst l = map fst es /\
      forall name i, In (name, i) l <->
        In name (map fst es) /\ git_lookup decode uid gid (mkGit tree prefix time) (path ++ slash :: name) = Ok (Some i).
Proof.
  intros decode uid gid tree prefix time path es Hp H Hd. set (g := mkGit tree prefix time).
  assert (E : look_up_path g path = Some (GTree es)) by (apply path_found; exact H).
  destruct (git_entries_total decode uid gid g path es Hd) as [l Hl].
  pose proof (object_at_proper _ _ _ Hp H) as He. inversion_clear He as [| |? N P].
  assert (Hk : map fst l = map fst es).
  { eapply git_entries_keys; [eassumption|]. apply Forall_forall. intros n Hn. apply in_map_iff in Hn as ([n' o] & <- & Ho). apply (P _ _ Ho). }
  exists l. unfold git_list at 1. rewrite E, Hl, dict_of_distinct by (unfold dkeys; now rewrite Hk).
  split; [reflexivity|]. split; [assumption|]. intros name i. rewrite (git_entries_ok _ _ _ _ _ _ _ Hl).
  assert (L : forall o, In (name, o) es -> look_up_path g (path ++ slash :: name) = Some o).
  { intros o Ho. apply path_found. cbn [g_tree g_prefix g]. rewrite components_child by (apply (P _ _ Ho)).
    rewrite app_assoc, object_at_app, H. cbn. now rewrite (find_entry es name o N Ho). }
  split.
  - intros (Hn & o & Ho & Hi). split; [apply in_map_iff; now exists (name, o)|]. unfold git_lookup. now rewrite (L o Ho), Hi.
  - intros (Hn & Hi). apply in_map_iff in Hn as ([n o] & <- & Ho). cbn [fst] in *. split; [apply (P _ _ Ho)|]. exists o. split; [assumption|].
    unfold git_lookup in Hi. rewrite (L o Ho) in Hi. destruct (git_info _ _ _ _ _ _); congruence.
Qed.
Print Assumptions C88_list.

Example C88_list_ex :
  git_list ex_decode 1 2 ex_git $"/src" =
  Ok (Some [($"a.py", mkInfo 4 1000 (32768 + 365) [] 1 2 [$"/src/a.py"]); ($"latest", mkInfo 4 1000 (40960 + 365) $"a.py" 1 2 [$"/src/latest"]);
            ($"sub", mkInfo 0 1000 (16384 + 365) [] 1 2 [$"/src/sub"])]).
Proof. reflexivity. Qed.

Theorem C88_list_mode :
  forall tree prefix time path es,
    proper_tree tree -> object_at tree (components prefix ++ components path) = Some (GTree es) ->
    git_list_mode (mkGit tree prefix time) path = Some (map (fun e => (fst e, kind_mode (snd e))) es).
Proof.
  intros tree prefix time path es Hp H. unfold git_list_mode. rewrite (path_found (mkGit tree prefix time) path (GTree es)) by exact H.
  pose proof (object_at_proper _ _ _ Hp H) as He. inversion_clear He as [| |? N P]. f_equal.
  assert (F : filter (fun e : str * gobj => match fst e with [] => false | _ => true end) es = es).
  { clear -P. induction es as [|[n o] es IH]; [reflexivity|]. cbn [filter fst]. destruct (P n o (or_introl eq_refl)) as [[Hn _] _].
    destruct n; [congruence|]. rewrite IH; [reflexivity|]. intros; apply P; now right. }
  rewrite F. rewrite dict_of_distinct; [apply map_ext; intros [n o]; cbn; now rewrite git_mode_kind|].
  unfold dkeys. rewrite map_map. exact N.
Qed.
Print Assumptions C88_list_mode.

(** One link whose target cannot be decoded makes the whole folder unlistable. *)
Theorem C88_list_refuted :
  ~ (forall (decode : str -> res str) uid gid tree prefix time path es,
       proper_tree tree -> object_at tree (components prefix ++ components path) = Some (GTree es) ->
       exists l, git_list decode uid gid (mkGit tree prefix time) path = Ok (Some l) /\
         forall name, In name (map fst es) -> (forall d, ~ In (name, GBlob true d) es) -> In name (map fst l)).
Proof.
  intros H. destruct (H ex_decode 1 2 (GTree [($"README", GBlob false $"hello"); ($"bad", GBlob true $"!")]) [] 0 $"/"
                        [($"README", GBlob false $"hello"); ($"bad", GBlob true $"!")]) as (l & E & _).
  - constructor; [repeat constructor; cbn; intuition discriminate|]. intros n o [[= <- <-]|[[= <- <-]|[]]]; (split; [|constructor]);
      (split; [discriminate|]; split; [discriminate|]; split; [discriminate|]; cbn; intuition discriminate).
  - reflexivity.
  - discriminate E.
Qed.
Print Assumptions C88_list_refuted.

(** Files found, by lookup or in a listing, read as in the commit, with the size shown. *)
Theorem C88_open :
  forall (decode : str -> res str) uid gid tree prefix time path i b d,
    object_at tree (components prefix ++ components path) = Some (GBlob b d) ->
    git_lookup decode uid gid (mkGit tree prefix time) path = Ok (Some i) ->
    git_open (mkGit tree prefix time) i = Ok d /\ fi_size i = len d.
Proof.
  intros decode uid gid tree prefix time path i b d H Hi.
  pose proof (path_found (mkGit tree prefix time) path (GBlob b d) H) as E.
  unfold git_lookup in Hi. rewrite E in Hi. unfold git_info in Hi.
  assert (Hu : fi_userdata i = [path] /\ fi_size i = len d).
  { destruct b; [destruct (decode d); [|discriminate]|]; injection Hi as <-; now split. }
  split; [|apply Hu]. unfold git_open. rewrite (proj1 Hu). cbn [rev app]. now rewrite E.
Qed.
Print Assumptions C88_open.

(** Nothing but files and links can be opened. *)
Theorem C88_open_other :
  forall (decode : str -> res str) uid gid tree prefix time path i o,
    object_at tree (components prefix ++ components path) = Some o -> (forall b d, o <> GBlob b d) ->
    git_lookup decode uid gid (mkGit tree prefix time) path = Ok (Some i) ->
    exists e, git_open (mkGit tree prefix time) i = Err e.
Proof.
  intros decode uid gid tree prefix time path i o H Ho Hi.
  pose proof (path_found (mkGit tree prefix time) path o H) as E.
  unfold git_lookup in Hi. rewrite E in Hi. unfold git_open.
  destruct o as [[|e es]|b d|]; [| |exfalso; now apply (Ho b d)|]; cbn [git_info] in Hi; injection Hi as <-;
    cbn [fi_userdata rev app]; rewrite E; now eexists.
Qed.
Print Assumptions C88_open_other.

Example C88_open_ex :
  exists i, git_lookup ex_decode 1 2 (mkGit ex_commit $"src/" 1000) $"/a.py" = Ok (Some i) /\
    git_open (mkGit ex_commit $"src/" 1000) i = Ok $"pass".
Proof. eexists. split; reflexivity. Qed.

(** A path that does not exist has a version all the same. *)
Theorem C88_versions_refuted :
  ~ (forall (decode : str -> res str) uid gid g path, git_lookup decode uid gid g path = Ok None -> git_versions g path = 0).
Proof. intros H. discriminate (H ex_decode 1 2 ex_git $"/none"). reflexivity. Qed.
Print Assumptions C88_versions_refuted.

(** git:// URLs name the repository, the reference and the path they are written with, as long as no part has the separators. *)
Theorem C89_git_url_partial :
  forall repo reference inside,
    (forall r, repo = Some r -> ~ In ":"%char r) ->
    (repo = None -> ~ In ":"%char (match reference with Some r => r | None => [] end) /\ ~ In ":"%char inside) ->
    (forall r, reference = Some r -> ~ In "@"%char r) -> (reference = None -> ~ In "@"%char inside) ->
    parse_url (git_url repo reference inside) = Ok (Repository repo reference inside).
Proof.
  intros repo reference inside H1 H2 H3 H4. unfold parse_url, git_url.
  change ($"git://") with ($"git" ++ $"://"). rewrite <- app_assoc. rewrite split1_at_prefix; [|discriminate|].
  2: { intros [|[|[|k]]] Hk; try reflexivity. cbn in Hk. lia. }
  change (str_eqb $"git" $"file") with false. change (str_eqb $"git" $"git") with true. cbv iota. change ($"git") with (["g"; "i"; "t"]%char). cbv iota.
  assert (B : match split1 "@" (match reference with Some r => r ++ $"@" | None => [] end ++ inside) with
              | Some (a, b) => (Some a, b) | None => (None, match reference with Some r => r ++ $"@" | None => [] end ++ inside) end = (reference, inside)).
  { destruct reference as [r|].
    - replace ((r ++ $"@") ++ inside) with (r ++ "@"%char :: inside) by (now rewrite <- app_assoc).
      rewrite split1_app by (now apply H3). reflexivity.
    - cbn [app]. assert (E : split1 "@" inside = None) by (apply split1_None; auto). now rewrite E. }
  destruct repo as [r|].
  - set (tl := match reference with Some r => r ++ $"@" | None => [] end ++ inside) in *.
    replace ((r ++ $":") ++ tl) with (r ++ ":"%char :: tl) by (now rewrite <- app_assoc).
    rewrite split1_app by (now apply H1). now rewrite B.
  - cbn [app]. assert (E : split1 ":" (match reference with Some r => r ++ $"@" | None => [] end ++ inside) = None).
    { apply split1_None. destruct (H2 eq_refl) as [Ha Hb]. intros Hi. apply in_app_iff in Hi as [Hi|Hi]; [|auto].
      destruct reference; [|destruct Hi]. apply in_app_iff in Hi as [Hi|[[=]|[]]]. auto. }
    rewrite E, B. reflexivity.
Qed.
Print Assumptions C89_git_url_partial.

Example C89_git_url_ex :
  parse_url $"git://my/repo:v1.0@src/a@b" = Ok (Repository (Some $"my/repo") (Some $"v1.0") $"src/a@b") /\
  parse_url $"git://src" = Ok (Repository None None $"src").
Proof. split; reflexivity. Qed.

(** Without a reference, a path with an @ cannot be named. *)
Theorem C89_git_url_refuted :
  ~ (forall inside, parse_url (git_url (Some $"repo") None inside) = Ok (Repository (Some $"repo") None inside)).
Proof. intros H. discriminate (H $"a@b"). Qed.
Print Assumptions C89_git_url_refuted.

(** file:// URLs name local paths. *)
Theorem C89_file_url : forall path, parse_url ($"file://" ++ path) = Ok (LocalPath path).
Proof.
  intros path. unfold parse_url. change ($"file://") with ($"file" ++ $"://"). rewrite <- app_assoc. rewrite split1_at_prefix; [reflexivity|discriminate|].
  intros [|[|[|[|k]]]] Hk; try reflexivity. cbn in Hk. lia.
Qed.
Print Assumptions C89_file_url.

(** A URL with a folder of the repository shows that folder: everything is found there as in the repository. *)
Theorem C89_inside_folder :
  forall (decode : str -> res str) uid gid tree time inside es,
    inside <> [] -> object_at tree (components inside) = Some (GTree es) ->
    exists g, open_inside decode uid gid (mkGit tree [] time) inside = Ok (Mounted g) /\
      forall path,
        same_file (git_lookup decode uid gid g path) (git_lookup decode uid gid (mkGit tree [] time) (inside ++ slash :: path)) /\
        git_list_mode g path = git_list_mode (mkGit tree [] time) (inside ++ slash :: path).
Proof.
  intros decode uid gid tree time inside es Hn H. exists (mkGit tree inside time). split.
  - unfold open_inside. destruct inside as [|c r]; [congruence|]. unfold git_lookup.
    rewrite (path_found (mkGit tree [] time) (c :: r) (GTree es)) by exact H. reflexivity.
  - intros path.
    assert (E : look_up_path (mkGit tree inside time) path = look_up_path (mkGit tree [] time) (inside ++ slash :: path)).
    { rewrite !look_up_path_components. cbn [g_tree g_prefix]. now rewrite components_app. }
    split; [|unfold git_list_mode; now rewrite E].
    unfold git_lookup. rewrite E. destruct (look_up_path _ (inside ++ slash :: path)) as [o|]; [|exact I].
    unfold git_info. destruct o as [|[] d|]; cbn [same_file]; try (now repeat split). destruct (decode d); [now repeat split|reflexivity].
Qed.
Print Assumptions C89_inside_folder.

(** A URL with a file of the repository is that file. *)
Theorem C89_inside_file :
  forall (decode : str -> res str) uid gid tree time inside d,
    inside <> [] -> object_at tree (components inside) = Some (GBlob false d) ->
    open_inside decode uid gid (mkGit tree [] time) inside = Ok (Contents d).
Proof.
  intros decode uid gid tree time inside d Hn H. unfold open_inside. destruct inside as [|c r]; [congruence|].
  pose proof (path_found (mkGit tree [] time) (c :: r) (GBlob false d) H) as E. unfold git_lookup. rewrite E. cbn [git_info].
  unfold git_open. cbn [fi_userdata rev app fi_mode]. rewrite E. reflexivity.
Qed.
Print Assumptions C89_inside_file.

(** A URL with a path that the repository does not have is an error, unless the path goes through a file. *)
Theorem C89_inside_missing_partial :
  forall (decode : str -> res str) uid gid tree time inside,
    object_at tree (components inside) = None -> only_folders_before tree (components inside) ->
    open_inside decode uid gid (mkGit tree [] time) inside = Err RatarmountError.
Proof.
  intros decode uid gid tree time inside H Hf. unfold open_inside. destruct inside as [|c r]; [discriminate H|].
  destruct (C88_missing_partial decode uid gid tree [] time (c :: r) H Hf) as (-> & _). reflexivity.
Qed.
Print Assumptions C89_inside_missing_partial.

Example C89_inside_ex :
  open_inside ex_decode 1 2 ex_git $"src" = Ok (Mounted (mkGit ex_commit $"src" 1000)) /\
  open_inside ex_decode 1 2 ex_git $"src/a.py" = Ok (Contents $"pass").
Proof. split; reflexivity. Qed.

(** Without a given reference, the branch that is checked out is shown, unless the configuration has a default branch. *)
Theorem C89_default_reference_partial :
  forall branches head,
    (forall b, In (b, true) branches <-> b = head) -> default_reference None branches = head.
Proof.
  intros branches head H. unfold default_reference. destruct (find (fun b => snd b) branches) as [[b h]|] eqn:F.
  - apply find_some in F as [F1 F2]. cbn in F2. subst h. now apply H.
  - exfalso. pose proof (find_none _ _ F (head, true) (proj2 (H head) eq_refl)) as C. discriminate C.
Qed.
Print Assumptions C89_default_reference_partial.

Example C89_default_reference_ex : default_reference None [($"master", false); ($"dev", true)] = $"dev".
Proof. reflexivity. Qed.

(** No branch is checked out: master is shown if there is such a branch, then main, and otherwise master is tried. *)
Theorem C89_default_reference_detached :
  forall branches, (forall b, ~ In (b, true) branches) ->
    let there n := exists h, In (n, h) branches in
    (there $"master" -> default_reference None branches = $"master") /\
    (~ there $"master" -> there $"main" -> default_reference None branches = $"main") /\
    (~ there $"master" -> ~ there $"main" -> default_reference None branches = $"master").
Proof.
  intros branches H there. unfold default_reference. destruct (find (fun b => snd b) branches) as [[b h]|] eqn:F.
  { exfalso. apply find_some in F as [F1 F2]. cbn in F2. subst h. exact (H b F1). }
  assert (forall n, existsb (fun b => str_eqb (fst b) n) branches = true <-> there n) as T.
  { intros n. rewrite existsb_exists. split.
    - intros ([c h] & I & E). cbn [fst] in E. destruct (str_eqb_spec c n) as [-> |]; [|discriminate]. now exists h.
    - intros (h & I). exists (n, h). split; [exact I|]. cbn [fst]. now destruct (str_eqb_spec n n). }
  cbn [find]. pose proof (T $"master") as T1. pose proof (T $"main") as T2.
  destruct (existsb (fun b => str_eqb (fst b) $"master") branches); destruct (existsb (fun b => str_eqb (fst b) $"main") branches);
    repeat split; intros; try reflexivity; exfalso; intuition congruence.
Qed.
Print Assumptions C89_default_reference_detached.

Example C89_default_reference_detached_ex :
  default_reference None [($"dev", false); ($"main", false)] = $"main" /\ default_reference None [($"main", false); ($"master", false)] = $"master".
Proof. split; reflexivity. Qed.

(** With a default branch for new repositories in the configuration, that name is used, even if there is no such branch. *)
Theorem C89_default_reference_refuted :
  ~ (forall config branches head, (forall b, In (b, true) branches <-> b = head) -> default_reference config branches = head).
Proof.
  intros H. specialize (H (Some $"main") [($"dev", true)] $"dev"). discriminate H.
  intros b. split; [intros [[= <-]|[]]; reflexivity|intros ->; now left].
Qed.
Print Assumptions C89_default_reference_refuted.
