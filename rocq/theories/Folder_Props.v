(** C40, C41, C49: folder mounts. *)
From Coq Require Import Ascii String Permutation.
From Verif Require Import PyBase PyDict PyStr Path_Model Path_Spec Path_Proofs FileInfo Index_Model Index_Spec Index_Proofs Folder_Model Folder_Spec Folder_Proofs.
Local Open Scope Z_scope.

(** ** C40: links that leave the mounted folder *)

(** The number that the code computes for a relative target is larger than the number of folders above the link exactly if
    following the target leaves the mounted folder. *)
Theorem C40_leaves loc target : relative target ->
  (Z.of_nat (length loc) < max_up_count target <-> leaves loc (split slash target)).
Proof. exact (up_count_leaves loc target). Qed.
Print Assumptions C40_leaves.

(** A link is replaced by what it points to exactly if it is relative, leaves the folder and points to something; every other
    link is shown with its own stat data and its target.  [follow] is what stat and realpath return for the link. *)
Theorem C40_links root tree follow loc n link target v :
  tree_ok tree -> found tree (loc ++ [n]) link -> n_link link = Some target -> v = 0 \/ v = 1 ->
  exists i, lookup root tree follow (written (loc ++ [n])) v = Some i /\
    (forall p s, relative target -> leaves loc (split slash target) -> follow (os_path root (loc ++ [n])) = Some (p, s) ->
       shows_stats s i /\ fi_linkname i = [] /\ (starts_with $"/" p = true -> get_file_path root i = Ok p)) /\
    (~ relative target \/ ~ leaves loc (split slash target) \/ follow (os_path root (loc ++ [n])) = None ->
       shows_stats (n_stats link) i /\ fi_linkname i = target /\ get_file_path root i = Ok (os_path root (loc ++ [n]))).
Proof.
  intros T F L V. destruct (lookup_link root tree follow T loc n link target v V F L) as [(p & s & R & Lv & Fo & E)|(C & E)]; rewrite E; eexists; (split; [reflexivity|]); split.
  - intros p' s' _ _ Fo'. rewrite Fo in Fo'. injection Fo' as <- <-. split; [repeat split|]. split; [reflexivity|]. intros Ab. unfold get_file_path. cbn [fi_userdata rev app]. now rewrite Ab.
  - intros [X|[X|X]]; [contradiction|contradiction|congruence].
  - intros p' s' R Lv Fo'. destruct C as [X|[X|X]]; [contradiction|contradiction|congruence].
  - intros _. split; [repeat split|]. split; [reflexivity|]. destruct (found_good _ _ _ T F) as [_ P]. unfold get_file_path. cbn [fi_userdata rev app].
    rewrite join_relative by exact P. now rewrite realpath_join by exact P.
Qed.
Print Assumptions C40_links.

(** Everything else is shown as it is, and opened where it is. *)
Theorem C40_files root tree follow loc x v : tree_ok tree -> found tree loc x -> n_link x = None -> v = 0 \/ v = 1 ->
  exists i, lookup root tree follow (written loc) v = Some i /\ shows_stats (n_stats x) i /\ fi_linkname i = [] /\ get_file_path root i = Ok (os_path root loc).
Proof.
  intros T F L V. rewrite (lookup_plain root tree follow T loc x v V F L). eexists. split; [reflexivity|]. split; [repeat split|]. split; [reflexivity|].
  destruct (found_good _ _ _ T F) as [_ P]. unfold get_file_path. cbn [fi_userdata rev app]. rewrite join_relative by exact P. now rewrite realpath_join by exact P.
Qed.
Print Assumptions C40_files.

(** There are no versions other than 0 and 1, which are the same. *)
Theorem C40_versions root tree follow loc v : tree_ok tree -> Forall proper_name loc ->
  (v <> 0 -> v <> 1 -> lookup root tree follow (written loc) v = None) /\
  lookup root tree follow (written loc) 1 = lookup root tree follow (written loc) 0 /\
  (versions root tree (written loc) = 1%nat <-> exists x, found tree loc x) /\ (versions root tree (written loc) <= 1)%nat.
Proof.
  intros T P. split; [|split; [reflexivity|]].
  - intros N0 N1. unfold lookup. apply Z.eqb_neq in N0, N1. now rewrite N0, N1.
  - unfold versions, exists_. split; [|destruct (os_at _ _ _); lia]. split.
    + destruct (os_at root tree (realpath root (written loc))) as [x|] eqn:E; [|discriminate]. apply (os_found root tree T loc x P) in E. eauto.
    + intros [x F]. now rewrite (proj2 (os_found root tree T loc x P) F).
Qed.
Print Assumptions C40_versions.

(** ** C41: listings and lookups *)

(** Folders, and only folders, have listings.  Both kinds of listings have one entry for every name in the folder, and these are
    the names that lookup finds below it. *)
Theorem C41_names root tree follow loc : tree_ok tree -> Forall proper_name loc ->
  ((exists s l cs, found tree loc (Node s l (Some cs))) <-> list_ root tree (written loc) <> None) /\
  ((exists s l cs, found tree loc (Node s l (Some cs))) <-> list_mode root tree (written loc) <> None) /\
  forall s l cs, found tree loc (Node s l (Some cs)) ->
  exists d m, list_ root tree (written loc) = Some d /\ list_mode root tree (written loc) = Some m /\
    dkeys d = map fst cs /\ dkeys m = map fst cs /\ NoDup (map fst cs) /\
    forall n, proper_name n -> (In n (map fst cs) <-> lookup root tree follow (written (loc ++ [n])) 0 <> None).
Proof.
  intros T P.
  assert (list_ root tree (written loc) <> None \/ list_mode root tree (written loc) <> None -> exists s l cs, found tree loc (Node s l (Some cs))) as Back.
  { intros L. destruct (walk tree loc) as [[s l [cs|]]|] eqn:E; [exists s, l, cs; now apply (walk_found tree T)| |];
      (destruct (list_none root tree T loc P) as [N1 N2]; [intros s' l' cs F; apply (walk_found tree T) in F; congruence|destruct L; contradiction]). }
  split; [|split].
  - split; [intros (s & l & cs & F); rewrite (list_folder root tree T loc s l cs F); discriminate|auto].
  - split; [intros (s & l & cs & F); rewrite (list_mode_folder root tree T loc s l cs F); discriminate|auto].
  - intros s l cs F. destruct (found_good _ _ _ T F) as [Tx _]. inversion Tx as [|? ? ? K N Pn Tf]; subst.
    rewrite (list_folder root tree T loc s l cs F), (list_mode_folder root tree T loc s l cs F). do 2 eexists. split; [reflexivity|]. split; [reflexivity|].
    unfold dkeys. rewrite !map_map. cbn [fst]. repeat (split; [first [reflexivity|exact N]|]). intros n Pr.
    rewrite (lookup_found root tree follow T (loc ++ [n])) by (apply Forall_app; auto). split.
    + intros I. apply in_map_iff in I as ([m c] & E & I). cbn in E. subst m. exists c. exact (found_child _ _ _ _ _ _ _ F I).
    + intros (x & Fx). apply found_prefix in Fx as (f & F1 & F2). rewrite (found_fun _ _ _ _ T F1 F) in F2. inversion F2 as [|? ? ? ? c ? ? I Fc]; subst.
      apply in_map_iff. now exists (n, c).
Qed.
Print Assumptions C41_names.

(** The information in listings agrees with that of lookups in size, times, mode and owner, for everything that is not a link out
    of the folder.  The file types of list_mode agree for regular files, folders and those links.
    Missing from the full statement: link targets, user data, links out of the folder and other file types, see below. *)
Theorem C41_info_partial root tree follow loc s l cs n e :
  tree_ok tree -> found tree loc (Node s l (Some cs)) -> In (n, e) cs ->
  (forall target, n_link e = Some target -> ~ relative target \/ ~ leaves loc (split slash target)) ->
  exists d m i j t, list_ root tree (written loc) = Some d /\ dget str_eqb d n = Some i /\
    list_mode root tree (written loc) = Some m /\ dget str_eqb m n = Some t /\
    lookup root tree follow (written (loc ++ [n])) 0 = Some j /\
    fi_size i = fi_size j /\ fi_mtime i = fi_mtime j /\ fi_mode i = fi_mode j /\ fi_uid i = fi_uid j /\ fi_gid i = fi_gid j /\
    (file_type (fi_mode j) = 32768 \/ n_link e <> None \/ n_children e <> None -> t = file_type (fi_mode j)).
Proof.
  intros T F I Lk. destruct (found_good _ _ _ T F) as [Tx _]. inversion Tx as [|? ? ? K N Pn Tf]; subst.
  pose proof (found_child _ _ _ _ _ _ _ F I) as Fe. destruct (found_good _ _ _ T Fe) as [Te _]. assert (kind_ok e) as [K1 K2] by (destruct Te; assumption).
  rewrite (list_folder root tree T loc s l cs F), (list_mode_folder root tree T loc s l cs F).
  assert (exists j, lookup root tree follow (written (loc ++ [n])) 0 = Some j /\ shows_stats (n_stats e) j) as (j & -> & J1 & J2 & J3 & J4 & J5).
  { destruct (n_link e) as [t|] eqn:El.
    - destruct (lookup_link root tree follow T loc n e t 0 (or_introl eq_refl) Fe El) as [(p & st & R & Lv & _)|(_ & ->)]; [destruct (Lk t eq_refl); contradiction|].
      eexists. split; [reflexivity|]. repeat split.
    - rewrite (lookup_plain root tree follow T (loc ++ [n]) e 0 (or_introl eq_refl) Fe El). eexists. split; [reflexivity|]. repeat split. }
  do 2 eexists. exists (mkInfo (st_size (n_stats e)) (st_mtime (n_stats e)) (st_mode (n_stats e)) (written loc)
      (st_uid (n_stats e)) (st_gid (n_stats e)) [match n_link e with Some _ => match l with Some t => t | None => [] end | None => [] end]), j, (make_mode e).
  split; [reflexivity|]. split.
  { apply NoDup_dget; [exact str_eqb_spec|unfold dkeys; rewrite map_map; exact N|]. apply in_map_iff. now exists (n, e). }
  split; [reflexivity|]. split.
  { apply NoDup_dget; [exact str_eqb_spec|unfold dkeys; rewrite map_map; exact N|]. apply in_map_iff. now exists (n, e). }
  split; [reflexivity|]. cbn [fi_size fi_mtime fi_mode fi_uid fi_gid]. repeat (split; [congruence|]). rewrite J3. unfold make_mode, file_type.
  unfold is_dir_mode, S_IFMT, S_IFDIR in K1. unfold is_lnk_mode, S_IFMT, S_IFLNK in K2. destruct (n_link e) as [t|] eqn:El.
  - intros _. apply Z.eqb_eq in K2. rewrite K2. reflexivity.
  - destruct (n_children e) as [c|] eqn:Ec; [intros _; apply Z.eqb_eq in K1; rewrite K1; reflexivity|]. intros [H|[H|H]]; [now rewrite H|congruence|congruence].
Qed.
Print Assumptions C41_info_partial.

(** Link targets and user data never agree: every entry of a listing claims to be a link to the listed folder, and opening any of
    them opens the mounted folder itself. *)
Theorem C41_links_refuted root tree loc s cs n e :
  tree_ok tree -> found tree loc (Node s None (Some cs)) -> In (n, e) cs ->
  exists d i, list_ root tree (written loc) = Some d /\ dget str_eqb d n = Some i /\
    fi_linkname i = written loc /\ get_file_path root i = Ok (os_path root []).
Proof.
  intros T F I. destruct (found_good _ _ _ T F) as [Tx _]. inversion Tx as [|? ? ? K N Pn Tf]; subst.
  rewrite (list_folder root tree T loc s None cs F). eexists. exists (mkInfo (st_size (n_stats e)) (st_mtime (n_stats e)) (st_mode (n_stats e)) (written loc)
      (st_uid (n_stats e)) (st_gid (n_stats e)) [[]]). split; [reflexivity|]. split.
  { apply NoDup_dget; [exact str_eqb_spec|unfold dkeys; rewrite map_map; exact N|]. apply in_map_iff. exists (n, e). split; [|exact I]. cbn [fst snd]. f_equal. f_equal. now destruct (n_link e). }
  split; [reflexivity|]. unfold get_file_path. cbn [fi_userdata rev app]. rewrite <- (realpath_join root []) by constructor. reflexivity.
Qed.
Print Assumptions C41_links_refuted.

(** list_mode shows every device, pipe and socket as a regular file. *)
Theorem C41_special_refuted root tree loc s l cs n e : tree_ok tree -> found tree loc (Node s l (Some cs)) -> In (n, e) cs ->
  n_link e = None -> n_children e = None -> file_type (st_mode (n_stats e)) <> 32768 ->
  exists m, list_mode root tree (written loc) = Some m /\ dget str_eqb m n = Some 32768.
Proof.
  intros T F I L C _. destruct (found_good _ _ _ T F) as [Tx _]. inversion Tx as [|? ? ? K N Pn Tf]; subst.
  rewrite (list_mode_folder root tree T loc s l cs F). eexists. split; [reflexivity|].
  apply NoDup_dget; [exact str_eqb_spec|unfold dkeys; rewrite map_map; exact N|]. apply in_map_iff. exists (n, e). split; [|exact I]. cbn [fst snd]. unfold make_mode. now rewrite L, C.
Qed.
Print Assumptions C41_special_refuted.

(** ** C49: indexed folders *)

(** After indexing, whatever the order of the entries and of the batches, lookups show what lstat returned for every file of the
    tree and its link target; opening regular files opens exactly the file that was looked up.  Nothing else is found, and
    listings have the names in the folder. *)
Theorem C49_index root tree arrange shuffle now uid gid sh :
  tree_ok tree -> (forall l, Permutation (arrange l) l) -> any_order sh -> any_order shuffle ->
  let files := build (map Batch (create_index tree arrange)) in
  let look p := Index_Model.lookup now uid gid sh files p 0 in
  (forall loc x, loc <> [] -> found tree loc x ->
     exists i, look (written loc) = Some i /\ shows_stats (n_stats x) i /\
       fi_linkname i = (match n_link x with Some t => t | None => [] end) /\
       (file_type (st_mode (n_stats x)) = 32768 -> indexed_open root shuffle files i = Ok (os_path root loc))) /\
  (forall p, starts_with $"../" p = false -> denotes p <> [] -> look p <> None -> exists x, found tree (denotes p) x) /\
  (forall loc s l cs, found tree loc (Node s l (Some cs)) -> cs <> [] ->
     exists d, index_list sh files (written loc) = Some d /\ Permutation (dkeys d) (map fst cs)).
Proof.
  intros T Ha Hsh Hs files look. split; [|split].
  - intros loc x Ne F. destruct (@exists_last _ loc Ne) as (l & n & ->). destruct (indexed_lookup tree T arrange Ha now uid gid sh l n x Hsh F) as (i & En & L).
    unfold look, files. rewrite L. eexists. split; [reflexivity|]. destruct (found_good _ _ _ T F) as [Tx P]. split; [repeat split|]. split.
    + cbn [row_to_file_info fi_linkname r_linkname entry_row]. assert (kind_ok x) as [_ K] by (destruct Tx; assumption). rewrite K. now destruct (n_link x).
    + intros M. unfold indexed_open. cbn [row_to_file_info fi_userdata rev app u_offsetheader r_offsetheader entry_row].
      rewrite (path_in_index tree T arrange Ha shuffle Hs l n x i En F). unfold file_type in M. rewrite M. change (32768 =? 32768) with true. cbn beta iota. f_equal. exact (realpath_written root _ P).
  - intros p Hp N L. unfold look in L. destruct (Index_Model.lookup now uid gid sh files p 0) as [i|] eqn:E; [|contradiction].
    exact (indexed_lookup_only tree T arrange Ha now uid gid sh p i 0 Hsh Hp N E).
  - intros loc s l cs F Ne. exact (indexed_list tree T arrange Ha sh loc s l cs Hsh F Ne).
Qed.
Print Assumptions C49_index.

(** The index has exactly one row for every entry below the folder, and no two of them have the same number. *)
Theorem C49_rows tree arrange : tree_ok tree -> (forall l, Permutation (arrange l) l) ->
  let files := build (map Batch (create_index tree arrange)) in
  (forall loc x, loc <> [] -> found tree loc x -> exists r, In r files /\ full_path r = written loc /\ forall r', In r' files -> full_path r' = written loc -> r' = r) /\
  (forall r, In r files -> exists loc x, loc <> [] /\ found tree loc x /\ full_path r = written loc) /\
  (forall r r', In r files -> In r' files -> r_offsetheader r = r_offsetheader r' -> r = r').
Proof.
  intros T Ha files. pose proof (TreeIndex_Proofs.tree_build _ _ (S_row tree T arrange Ha) (S_path tree T arrange) (S_last tree arrange) (S_parent tree T arrange Ha)) as B. split; [|split].
  - intros loc x Ne F. destruct (@exists_last _ loc Ne) as (l & n & ->). destruct (found_row tree arrange Ha l n x F) as (i & _ & I).
    exists (entry_row (folder_of l) n x (Z.of_nat i)). pose proof (entry_row_of tree T l n x (Z.of_nat i) F) as R. split; [unfold files; apply B; now rewrite inserted_calls|]. split; [apply R|].
    intros r' I' E'. unfold files in I'. apply B in I'. destruct (S_row tree T arrange Ha r' I') as (loc' & x' & F' & R').
    assert (loc' = l ++ [n]) as ->. { apply written_inj; [apply (found_good _ _ _ T F')|apply (found_good _ _ _ T F)|]. destruct R' as (R' & _). congruence. }
    apply (S_one tree T arrange Ha (l ++ [n])); [exists x'; auto|exists x; auto|exact I'|now rewrite inserted_calls].
  - intros r I. unfold files in I. apply B in I. rewrite inserted_calls in I. apply (row_found tree arrange Ha) in I as (i & l & n & x & _ & F & ->).
    exists (l ++ [n]), x. split; [destruct l; discriminate|]. split; [exact F|]. apply (entry_row_of tree T l n x (Z.of_nat i) F).
  - intros r r' I I' E. exact (build_numbers tree T arrange Ha r r' I I' E).
Qed.
Print Assumptions C49_rows.

(** The paths of folders, links and special files cannot be found again: asking for their extended attributes fails. *)
Theorem C49_special_refuted root tree arrange shuffle now uid gid sh loc x :
  tree_ok tree -> (forall l, Permutation (arrange l) l) -> any_order sh -> any_order shuffle ->
  loc <> [] -> found tree loc x -> file_type (st_mode (n_stats x)) <> 32768 ->
  let files := build (map Batch (create_index tree arrange)) in
  exists i, Index_Model.lookup now uid gid sh files (written loc) 0 = Some i /\ indexed_open root shuffle files i = Err ValueError.
Proof.
  intros T Ha Hsh Hs Ne F M files. destruct (@exists_last _ loc Ne) as (l & n & ->). destruct (indexed_lookup tree T arrange Ha now uid gid sh l n x Hsh F) as (i & En & L).
  unfold files. rewrite L. eexists. split; [reflexivity|]. unfold indexed_open. cbn [row_to_file_info fi_userdata rev app u_offsetheader r_offsetheader entry_row].
  rewrite (path_in_index tree T arrange Ha shuffle Hs l n x i En F). unfold file_type in M. apply Z.eqb_neq in M. now rewrite M.
Qed.
Print Assumptions C49_special_refuted.

(** ** Examples *)
Definition ex_file (size : Z) : node := Node (mkStats size 7 33188 1000 100) None None.
Definition ex_link (target : str) : node := Node (mkStats (len target) 8 41471 1000 100) (Some target) None.
Definition ex_dir (cs : list (str * node)) : node := Node (mkStats 4096 9 16877 1000 100) None (Some cs).
Definition ex_tree : node :=
  ex_dir [($"a", ex_file 3); ($"d", ex_dir [($"b c", ex_file 5); ($"up", ex_link $"../a"); ($"out", ex_link $"x/../../../etc/passwd")]); ($"pipe", Node (mkStats 0 1 4516 0 0) None None); ($"e", ex_dir [])].
Definition ex_follow (p : str) : option (str * stats) :=
  if str_eqb p $"/data/d/out" then Some ($"/etc/passwd", mkStats 1000 2 33188 0 0) else None.

Ltac proper := repeat split; try discriminate; intros H; repeat (destruct H as [H|H]; [discriminate H|]); exact H.
Ltac names := cbn; repeat apply Forall_cons; try apply Forall_nil; proper.
Ltac nodup := cbn; repeat constructor; cbn; intuition discriminate.
Example C40_example : tree_ok ex_tree /\
  found ex_tree [$"d"; $"out"] (ex_link $"x/../../../etc/passwd") /\ leaves [$"d"] (split slash $"x/../../../etc/passwd") /\ ~ leaves [$"d"] (split slash $"../a") /\
  option_map (@fi_size str) (lookup $"/data" ex_tree ex_follow $"/d/out" 0) = Some 1000 /\
  option_map (@fi_linkname str) (lookup $"/data" ex_tree ex_follow $"/d/up" 0) = Some $"../a".
Proof.
  split; [|split; [|split; [|split; [|split; vm_compute; reflexivity]]]].
  - assert (forall z, tree_ok (ex_file z)) as Tf by (intros; constructor; split; reflexivity). assert (forall t, tree_ok (ex_link t)) as Tl by (intros; constructor; split; reflexivity).
    apply folder_ok; [split; reflexivity|nodup|names|]. cbn. repeat apply Forall_cons; try apply Forall_nil; auto.
    + apply folder_ok; [split; reflexivity|nodup|names|]. cbn. repeat apply Forall_cons; try apply Forall_nil; auto.
    + constructor. split; reflexivity.
    + apply folder_ok; [split; reflexivity|nodup|names|constructor].
  - apply (found_below _ _ _ _ (ex_dir [($"b c", ex_file 5); ($"up", ex_link $"../a"); ($"out", ex_link $"x/../../../etc/passwd")])); [right; left; reflexivity|].
    apply (found_below _ _ _ _ (ex_link $"x/../../../etc/passwd")); [right; right; left; reflexivity|constructor].
  - cbn. right. right. right. left. split; reflexivity.
  - cbn. intros H. repeat (destruct H as [[? ?]|H]; [discriminate|]). exact H.
Qed.

Example C49_example :
  map (fun r => (full_path r, r_offsetheader r, r_size r)) (concat (create_index ex_tree (fun l => l))) =
  [($"/a", 0, 3); ($"/d", 1, 4096); ($"/pipe", 2, 0); ($"/e", 3, 4096); ($"/d/b c", 4, 5); ($"/d/up", 5, 4); ($"/d/out", 6, 21)].
Proof. vm_compute. reflexivity. Qed.
