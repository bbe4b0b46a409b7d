(** Properties C64, C65, C66 and C67: members of archives that are read with libarchive. *)
From Coq Require Import Ascii String.
From Verif Require Import PyBase PyDict PyStr Path_Model Path_Spec Path_Proofs FileInfo Index_Model Index_Spec MemFile_Spec
  Lib_Model Lib_Spec Lib_Proofs LibIndex_Model LibIndex_Spec LibIndex_Proofs LibShared_Model LibShared_Spec LibShared_Proofs.
Local Open Scope Z_scope.

(** C64: open files behave like independent files with the content of their members, whatever the history of calls on any number of
    them, and whatever the sizes of the cache of archives and of the buffers. *)
Theorem C64_independent_files_partial :
  forall (A : Type) (members : list (list A)) (cache_size : nat) (buffer_max : Z) (es : list event),
  0 < buffer_max -> Forall (opens_nonempty members) es ->
  run members cache_size buffer_max w_init es = answers members [] es.
Proof. intros A members cache_size buffer_max es H Hes. apply run_ok; [assumption| |assumption]. split; constructor. Qed.
Print Assumptions C64_independent_files_partial.

(** Three members, buffers of two bytes: two files of the same member, seeking back beyond the buffer, opening an earlier member. *)
Definition three : list (list nat) := [[10; 11; 12; 13; 14]; [20; 21; 22]; [30]]%nat.
Definition busy : list event :=
  [EOpen 1 3; ERead 0 2; EOpen 1 3; EOpen 0 5; ERead 2 4; ERead 1 (-1); ESeek 2 (-4) SeekCur; ERead 2 2; ERead 0 2; EClose 1; EOpen 2 1;
   ESeek 0 (-3) SeekEnd; ERead 0 1; ERead 3 7; ETell 2; ESeek 2 100 SeekSet; ERead 2 1].
Example C64_example :
  0 < 2 /\ Forall (opens_nonempty three) busy /\
  answers three [] busy =
    [Some (RHandle 0); Some (RData [20; 21]%nat); Some (RHandle 1); Some (RHandle 2); Some (RData [10; 11; 12; 13]%nat);
     Some (RData [20; 21; 22]%nat); Some (RPos 0); Some (RData [10; 11]%nat); Some (RData [22]%nat); Some RDone; Some (RHandle 3);
     Some (RPos 0); Some (RData [20]%nat); Some (RData [30]%nat); Some (RPos 2); Some (RPos 5); Some (RData [])].
Proof.
  split; [lia|]. split; [|reflexivity].
  unfold busy. repeat (apply Forall_cons; [first [exact Logic.I|intros c E; injection E as <-; split; [discriminate|reflexivity]]|]). apply Forall_nil.
Qed.

(** An empty member can be opened, but not read. *)
Theorem C64_empty_member_refuted :
  run [@nil nat] 5 1048576 w_init [EOpen 0 0; ERead 0 1] = [Some (RHandle 0); Some (RRaise RuntimeError)] /\
  answers [@nil nat] [] [EOpen 0 0; ERead 0 1] = [Some (RHandle 0); Some (RData [])].
Proof. split; reflexivity. Qed.
Print Assumptions C64_empty_member_refuted.

(** C65: a path gives the newest entry of the archive at that location: its size, time and permissions, and opening what was looked up
    and reading it gives the content of that entry, after any history of other calls. *)
Theorem C65_newest_entry_is_served_partial :
  forall (A : Type) (transform : str -> str) (raw : option str) (limit : nat) (entries : list (entry A)),
  forall now uid gid sh path count e, any_order sh -> starts_with $"../" path = false -> denotes path <> [] ->
  newest transform raw entries count e (denotes path) -> nothing_below transform raw entries (denotes path) ->
  honest_size e -> e_data e <> [] ->
  let contents := map e_data entries in
  exists i open,
    lookup now uid gid sh (build (create_lib_index transform limit raw entries)) path 0 = Some i /\
    fi_size i = Z.of_nat (length (e_data e)) /\ fi_mtime i = e_mtime e /\ Z.land (fi_mode i) 511 = Z.land (e_mode e) 511 /\
    fi_uid i = 0 /\ fi_gid i = 0 /\
    (e_symlink e = [] -> e_hardlink e = [] -> fi_linkname i = [] /\
       fi_mode i - fi_mode i mod 512 = if Z.land (e_filetype e) 61440 =? 16384 then 16384 else 32768) /\
    open_event i = Some open /\
    forall cache_size buffer_max es, 0 < buffer_max -> Forall (opens_nonempty contents) es ->
      let before := run contents cache_size buffer_max w_init es in
      let handle := number_of_handles before in
      run contents cache_size buffer_max w_init (es ++ [open; ERead handle (-1)]) = before ++ [Some (RHandle handle); Some (RData (e_data e))].
Proof.
  intros A transform raw limit entries now uid gid sh path count e Hsh Hp Hr Hn Hb Hsize Hd contents.
  destruct (row_fields transform raw count e) as (F1 & F2 & F3 & F4 & F5 & F6 & F7).
  set (r := convert_to_row transform count (raw_path raw count) e) in *.
  assert (Es : r_size r = Z.of_nat (length (e_data e))) by (rewrite F4; destruct Hsize as [-> | ->]; reflexivity).
  exists (row_to_file_info r), (EOpen count (Z.of_nat (length (e_data e)))).
  assert (Ow : r_uid r = 0 /\ r_gid r = 0) by (unfold r, convert_to_row; now destruct (Tar_Model.split_last _)). destruct Ow as (Ou & Og).
  split; [apply lib_lookup; auto|]. cbn [row_to_file_info fi_size fi_mtime fi_mode fi_uid fi_gid fi_linkname]. split; [exact Es|]. split; [exact F5|]. split.
  { rewrite F7, Z.land_lor_distr_l, <- Z.land_assoc. change (Z.land 511 511) with 511.
    replace (Z.land (match entry_linkname e with [] => _ | _ => _ end) 511) with 0; [apply Z.lor_0_r|].
    destruct (entry_linkname e); [destruct (is_directory e)|]; reflexivity. }
  split; [exact Ou|]. split; [exact Og|]. split.
  { intros Ns Nh. assert (entry_linkname e = []) as L by (unfold entry_linkname; now destruct (is_symbolic_link e)). rewrite F6, F7, L. split; [reflexivity|].
    unfold is_directory. set (m := e_mode e). change 512 with (2 ^ 9). rewrite <- Z.land_ones by lia. change (Z.ones 9) with 511.
    assert (X : forall t, Z.land t 511 = 0 -> Z.lor (Z.land m 511) t - Z.land (Z.lor (Z.land m 511) t) 511 = t).
    { intros t T. rewrite Z.land_lor_distr_l, <- Z.land_assoc. change (Z.land 511 511) with 511. rewrite T, Z.lor_0_r.
      assert (N : Z.land (Z.land m 511) t = 0) by (rewrite <- Z.land_assoc, (Z.land_comm 511), T; apply Z.land_0_r).
      rewrite <- Z.lxor_lor, <- Z.add_nocarry_lxor by exact N. lia. }
    destruct (_ =? _); now apply X. }
  split; [unfold open_event; cbn [row_to_file_info fi_userdata u_offsetheader fi_size]; now rewrite F3, Nat2Z.id, Es|].
  intros cache_size buffer_max es Hm Hes. cbv zeta.
  assert (Hc : nth_error contents count = Some (e_data e)) by (unfold contents; apply map_nth_error; apply Hn).
  assert (Ho : opens_nonempty contents (EOpen count (Z.of_nat (length (e_data e))))) by (intros c E; rewrite Hc in E; injection E as <-; auto).
  assert (Hes' : Forall (opens_nonempty contents) (es ++ [EOpen count (Z.of_nat (length (e_data e))); ERead (number_of_handles (answers contents [] es)) (-1)])).
  { apply Forall_app. split; [assumption|]. constructor; [exact Ho|]. constructor; [exact Logic.I|constructor]. }
  rewrite (C64_independent_files_partial _ _ _ _ es Hm Hes), (C64_independent_files_partial _ _ _ _ _ Hm Hes').
  rewrite answers_app, handles_files. cbn [length Nat.add]. f_equal. set (files := files_after contents [] es).
  cbn [answers answer_of]. rewrite Hc. rewrite nth_error_app2, Nat.sub_diag by lia. cbn [nth_error].
  change (-1 <? 0) with true. cbv iota. change (skipn (Z.to_nat 0) (nth count contents [])) with (nth count contents []).
  now rewrite (nth_error_nth _ _ [] Hc).
Qed.
Print Assumptions C65_newest_entry_is_served_partial.

(** Two entries at one path, the older one in another spelling, below a folder without an entry. *)
Definition file_entry (path : str) (data : list nat) : entry nat := mkEntry path (Some (Z.of_nat (length data))) data 33188 32768 [] [] 7.
Definition sample_entries : list (entry nat) :=
  [file_entry $"d/x" [1; 2]%nat; file_entry $"y" [3]%nat; file_entry $"./d//x" [4; 5; 6]%nat; mkEntry $"z" None [9; 9]%nat 420 32768 [] [] 3].
Example C65_example :
  newest (fun p => p) None sample_entries 2 (file_entry $"./d//x" [4; 5; 6]%nat) (denotes $"/d/x") /\
  nothing_below (fun p => p) None sample_entries (denotes $"/d/x") /\ honest_size (file_entry $"./d//x" [4; 5; 6]%nat) /\
  option_map (fun i => (fi_size i, fi_mode i)) (lookup 0 0 0 (fun l => l) (build (create_lib_index (fun p => p) 1 None sample_entries)) $"/d/x" 0)
    = Some (3, 33188).
Proof.
  split; [|split; [|split; [now right|reflexivity]]].
  - split; [reflexivity|]. split; [reflexivity|]. intros [|[|[|[|later]]]] e' L E; try lia; [injection E as <-; discriminate|now destruct later].
  - intros [|[|[|[|count]]]] e rest E N; try (injection E as <-; destruct rest as [|? [|]]; (congruence || discriminate)). now destruct count.
Qed.

(** If an entry with something below it is newest at its path, its path may give the folder that is generated above the other entry. *)
Theorem C65_entry_below_refuted :
  let entries := [file_entry $"a" [1]%nat; file_entry $"a/b" [2]%nat] in
  newest (fun p => p) None entries 0 (file_entry $"a" [1]%nat) (denotes $"/a") /\
  option_map (fun i => is_dir_mode (fi_mode i)) (lookup 0 0 0 (fun l => l) (build (create_lib_index (fun p => p) 1000 None entries)) $"/a" 0) = Some true.
Proof.
  split; [|reflexivity]. split; [reflexivity|]. split; [reflexivity|].
  intros [|[|later]] e' L E; try lia; [injection E as <-; discriminate|now destruct later].
Qed.
Print Assumptions C65_entry_below_refuted.

(** Folders are found even with entries below them. *)
Theorem C65_folders_are_served :
  forall (A : Type) (transform : str -> str) (raw : option str) (limit : nat) (entries : list (entry A)),
  forall now uid gid sh path count e, any_order sh -> starts_with $"../" path = false -> denotes path <> [] ->
  newest transform raw entries count e (denotes path) -> e_symlink e = [] -> e_hardlink e = [] -> Z.land (e_filetype e) 61440 = 16384 ->
  exists i, lookup now uid gid sh (build (create_lib_index transform limit raw entries)) path 0 = Some i /\
    fi_mode i = Z.lor (Z.land (e_mode e) 511) 16384 /\ fi_mtime i = e_mtime e.
Proof.
  intros A transform raw limit entries now uid gid sh path count e Hsh Hp Hr Hn Hs Hh Ht.
  destruct (row_fields transform raw count e) as (F1 & F2 & F3 & F4 & F5 & F6 & F7).
  assert (L : entry_linkname e = []) by (unfold entry_linkname; destruct (is_symbolic_link e); assumption).
  assert (D : is_directory e = true) by (unfold is_directory; now rewrite Ht).
  eexists. split; [apply lib_lookup with (count := count) (e := e); auto|]. cbn [row_to_file_info fi_mode fi_mtime]. rewrite F7, L, D. auto.
Qed.
Print Assumptions C65_folders_are_served.

Example C65_folders_example :
  let entries := [mkEntry $"d/" None [] 16877 16384 [] [] 5; file_entry $"d/f" [1]%nat] in
  newest (fun p => p) None entries 0 (mkEntry $"d/" None [] 16877 16384 [] [] 5) (denotes $"/d").
Proof.
  split; [reflexivity|]. split; [reflexivity|]. intros [|[|later]] e' L E; try lia; [injection E as <-; discriminate|now destruct later].
Qed.

(** C66: a link leads to what the archive says.  Symbolic links keep their text, and hard links in the top folder of the archive
    become symbolic links that lead to the entry they name. *)
Theorem C66_links_partial :
  forall (A : Type) (raw : option str) (limit : nat) (entries : list (entry A)),
  forall now uid gid sh path count e, any_order sh -> starts_with $"../" path = false -> denotes path <> [] ->
  newest (fun p => p) raw entries count e (denotes path) -> nothing_below (fun p => p) raw entries (denotes path) ->
  (Z.land (e_filetype e) 61440 = 40960 -> e_symlink e <> [] ->
   exists i, lookup now uid gid sh (build (create_lib_index (fun p => p) limit raw entries)) path 0 = Some i /\
     is_lnk_mode (fi_mode i) = true /\ fi_linkname i = e_symlink e) /\
  (Z.land (e_filetype e) 61440 <> 40960 -> e_hardlink e <> [] -> length (denotes path) = 1%nat ->
   exists i, lookup now uid gid sh (build (create_lib_index (fun p => p) limit raw entries)) path 0 = Some i /\
     is_lnk_mode (fi_mode i) = true /\
     denotes (folder_of (removelast (denotes path)) ++ $"/" ++ fi_linkname i) = denotes (e_hardlink e)).
Proof.
  intros A raw limit entries now uid gid sh path count e Hsh Hp Hr Hn Hb.
  destruct (row_fields (fun p => p) raw count e) as (F1 & F2 & F3 & F4 & F5 & F6 & F7).
  assert (M : forall l : str, l <> [] -> is_lnk_mode (Z.lor (Z.land (e_mode e) 511) match l with [] => if is_directory e then S_IFDIR else S_IFREG | _ => S_IFLNK end) = true).
  { intros [|c l] N; [congruence|]. unfold is_lnk_mode. rewrite Z.land_lor_distr_l, <- Z.land_assoc. change (Z.land 511 S_IFMT) with 0. now rewrite Z.land_0_r. }
  split.
  - intros T N. assert (L : entry_linkname e = e_symlink e) by (unfold entry_linkname, is_symbolic_link; now rewrite T).
    eexists. split; [apply lib_lookup with (count := count) (e := e); auto|]. cbn [row_to_file_info fi_mode fi_linkname]. rewrite F7, F6, L. auto.
  - intros T N L1. assert (L : entry_linkname e = e_hardlink e).
    { unfold entry_linkname, is_symbolic_link. destruct (Z.eqb_spec (Z.land (e_filetype e) 61440) 40960); [contradiction|reflexivity]. }
    eexists. split; [apply lib_lookup with (count := count) (e := e); auto|]. cbn [row_to_file_info fi_mode fi_linkname]. rewrite F7, F6, L. split; [auto|].
    destruct (denotes path) as [|x [|]]; [discriminate| |discriminate]. cbn [removelast]. change (folder_of []) with (@nil ascii). cbn [app].
    change ($"/" ++ e_hardlink e) with (slash :: e_hardlink e). apply denotes_cons_slash.
Qed.
Print Assumptions C66_links_partial.

(** A hard link in a folder becomes a symbolic link whose target does not exist: the target is relative to the folder of the link. *)
Definition linked : list (entry nat) := [file_entry $"d/a" [1; 2]%nat; mkEntry $"d/b" None [] 33188 32768 [] $"d/a" 7].
Theorem C66_hard_link_in_folder_refuted :
  let table := build (create_lib_index (fun p => p) 1000 None linked) in
  exists i, lookup 0 0 0 (fun l => l) table $"/d/b" 0 = Some i /\ is_lnk_mode (fi_mode i) = true /\
    option_map fi_size (lookup 0 0 0 (fun l => l) table (e_hardlink (nth 1 linked (file_entry [] []))) 0) = Some 2 /\
    lookup 0 0 0 (fun l => l) table (folder_of [$"d"] ++ $"/" ++ fi_linkname i) 0 = None.
Proof. eexists. split; [reflexivity|]. split; [reflexivity|]. split; reflexivity. Qed.
Print Assumptions C66_hard_link_in_folder_refuted.

Example C66_example :
  newest (fun p => p) None [file_entry $"d/a" [1]%nat; mkEntry $"b" None [] 33188 32768 [] $"d/a" 7] 1 (mkEntry $"b" None [] 33188 32768 [] $"d/a" 7) (denotes $"b").
Proof. split; [reflexivity|]. split; [reflexivity|]. intros [|[|later]] e' L E; try lia. now destruct later. Qed.

(** C67: an archive given as a file object, such as an archive inside of another one, gives the same contents as one given by its
    path.  This holds as long as the whole archive fits into the buffer of the read callback. *)
Theorem C67_file_object_partial :
  forall (members : list (list nat)) (buffer cache_size : nat) (opens : list (nat * nat)),
  (length (archive_of members) <= buffer)%nat ->
  Forall (fun '(index, size) => exists m, nth_error members index = Some m /\ size = length m) opens ->
  fetches (archive_of members) buffer cache_size ([], 0%nat) opens = map (fun '(index, _) => Ok (nth index members [])) opens.
Proof.
  intros members buffer cache_size opens Hb Ho. apply fetches_ok with (members := members); try assumption; try reflexivity.
  split; [constructor|]. intros N. now destruct N.
Qed.
Print Assumptions C67_file_object_partial.

Example C67_example :
  (length (archive_of three) <= 12)%nat /\
  Forall (fun '(index, size) => exists m, nth_error three index = Some m /\ size = length m) [(2, 1); (0, 5); (1, 3); (0, 5)]%nat /\
  fetches (archive_of three) 12 5 ([], 0%nat) [(2, 1); (0, 5); (1, 3); (0, 5)]%nat = [Ok [30]; Ok [10; 11; 12; 13; 14]; Ok [20; 21; 22]; Ok [10; 11; 12; 13; 14]]%nat.
Proof.
  split; [cbn; lia|]. split; [|reflexivity]. repeat (apply Forall_cons; [eexists; split; reflexivity|]). apply Forall_nil.
Qed.

(** Larger archives are read wrongly even if their members are read one after the other in the order of the archive: the third one
    reuses an archive whose next bytes are no longer at the position of the file object. *)
Theorem C67_larger_archive_refuted :
  fetches (archive_of three) 4 5 ([], 0%nat) [(0, 5); (1, 3); (2, 1)]%nat <> map (fun m => Ok m) three /\
  Forall (fun m => (length m <= 5)%nat) three.
Proof. split; [vm_compute; discriminate|repeat constructor]. Qed.
Print Assumptions C67_larger_archive_refuted.

(** A file that is only compressed is seen under the name of the archive without its compression suffix, in upper or lower case, if
    something is left then, and under the name of the archive if it has no such suffix. *)
Theorem C65_compressed_name :
  forall suffixes fname,
  (exists ext s, In s suffixes /\ map Strip_Model.lower ext = map Strip_Model.lower s /\
     fname = cut_suffix suffixes fname ++ $"." ++ ext /\ cut_suffix suffixes fname <> []) \/
  (cut_suffix suffixes fname = fname /\
   forall stem ext s, In s suffixes -> map Strip_Model.lower ext = map Strip_Model.lower s -> fname = stem ++ $"." ++ ext -> stem = []).
Proof. exact cut_suffix_spec. Qed.
Print Assumptions C65_compressed_name.

Example C65_compressed_example : cut_suffix [$"gz"; $"bz2"] $"a.txt.GZ" = $"a.txt" /\ cut_suffix [$"gz"; $"bz2"] $".bz2" = $".bz2".
Proof. split; reflexivity. Qed.
