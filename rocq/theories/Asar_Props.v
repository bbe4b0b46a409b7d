(** C39: ASAR archives are indexed completely. *)
From Coq Require Import Ascii String Permutation.
From Verif Require Import PyBase PyDict PyStr PyInt Path_Model Path_Spec Path_Proofs FileInfo Index_Model Index_Spec Asar_Model Asar_Spec Asar_Proofs.
Local Open Scope Z_scope.

(** For every header tree the rows that are inserted are exactly one for every entry, whatever the batches. *)
Theorem C39_rows header fs dataOffset : tree_ok header -> is_folder header fs ->
  exists calls, create_index (fun p => p) header dataOffset = Ok calls /\
    (forall loc e, found header loc e ->
       exists r, filter (fun r => str_eqb (full_path r) (written loc)) (concat calls) = [r] /\ row_says dataOffset loc e r) /\
    (forall r, In r (concat calls) -> exists loc e, found header loc e /\ row_says dataOffset loc e r).
Proof.
  intros T F. destruct (create_index_rows dataOffset header fs T F) as (calls & rows & E & _). exists calls. split; [exact E|]. split.
  - intros loc e. exact (found_row dataOffset header fs calls T F E loc e).
  - intros r. exact (row_found dataOffset header fs calls T F E r).
Qed.
Print Assumptions C39_rows.

(** The whole archive: for every file in the ASAR format, looking up any path gives the entry of the tree at that path, with
    the content from the archive; listing a folder gives its names.  Paths that are not in the tree are not found. *)
Theorem C39_archive load json padding contents header fs :
  load json = Some header -> len json + 11 < 4294967296 -> len padding = padded (len json) - len json -> tree_ok header -> is_folder header fs ->
  exists calls, open_asar load (fun p => p) (asar_file json padding contents) = Ok calls /\
  forall now uid gid sh, any_order sh ->
  let files := build (map Batch calls) in
  let look p := lookup now uid gid sh files p 0 in
  (forall loc offset size e, found header loc e -> is_file e offset size -> 0 <= offset ->
     exists i u, look (written loc) = Some i /\ is_reg_mode (fi_mode i) = true /\ fi_size i = size /\ fi_userdata i = [u] /\
       zslice (asar_file json padding contents) (u_offset u) (fi_size i) = zslice contents offset size) /\
  (forall loc fs', loc <> [] -> found header loc (Entry None None (Some fs')) ->
     exists i, look (written loc) = Some i /\ is_dir_mode (fi_mode i) = true) /\
  (forall p, starts_with $"../" p = false -> denotes p <> [] -> look p <> None -> exists e, found header (denotes p) e) /\
  (forall loc fs', found header loc (Entry None None (Some fs')) -> loc = [] \/ fs' <> [] ->
     exists dir, index_list sh files (written loc) = Some dir /\ Permutation (dkeys dir) (map fst fs')).
Proof.
  intros Lo Lj Lp T F. destruct (create_index_rows (16 + padded (len json)) header fs T F) as (calls & rows & E & _). exists calls.
  split; [rewrite <- E; exact (open_file load json padding contents header Lj Lp Lo)|]. intros now uid gid sh Hsh files look. split; [|split; [|split]].
  - intros loc o s e Fo Fi Ho. assert (loc <> []) as N.
    { intros ->. inversion Fo; subst. destruct Fi as (vo & vs & X & _). congruence. }
    destruct (asar_lookup _ header fs calls T F E now uid gid sh loc e Hsh N Fo) as (i & L & [(fs' & X & _)|(o' & s' & u & X & M & Z0 & U & O)]).
    { destruct Fi as (vo & vs & Y & _). congruence. }
    destruct X as (vo & vs & X & Mo & Ms). destruct Fi as (vo' & vs' & Y & Mo' & Ms'). rewrite X in Y. injection Y as <- <-.
    apply means_int in Mo, Ms, Mo', Ms'. assert (o' = o) as -> by congruence. assert (s' = s) as -> by congruence.
    exists i, u. repeat (split; [assumption|]). rewrite Z0, O. now apply contents_at.
  - intros loc fs' N Fo. destruct (asar_lookup _ header fs calls T F E now uid gid sh loc _ Hsh N Fo) as (i & L & [(fs2 & _ & M & _)|(o' & s' & u & (vo & vs & X & _) & _)]); [|discriminate X].
    exists i. auto.
  - intros p Hp N L. unfold look in L. destruct (lookup now uid gid sh files p 0) as [i|] eqn:El; [|contradiction].
    destruct (asar_lookup_only _ header fs calls T F E now uid gid sh p 0 i Hsh Hp N El) as (e & Fo & _). eauto.
  - intros loc fs' Fo Ne. exact (asar_list _ header fs calls T F E sh loc fs' Hsh Fo Ne).
Qed.
Print Assumptions C39_archive.

(** The probe accepts exactly the format: everything it returns is what the first 16 bytes say. *)
Theorem C39_probe data h n d : find_asar_header data = Ok (h, n, d) ->
  h = 16 /\ 0 <= n < 4294967296 /\ d = 16 + padded n /\
  zslice data 0 16 = le32 4 ++ le32 (padded n + 8) ++ le32 (padded n + 4) ++ le32 n.
Proof. exact (header_sound data h n d). Qed.
Print Assumptions C39_probe.

Theorem C39_probe_complete json padding contents : len json + 11 < 4294967296 -> len padding = padded (len json) - len json ->
  find_asar_header (asar_file json padding contents) = Ok (16, len json, 16 + padded (len json)).
Proof. exact (header_found json padding contents). Qed.
Print Assumptions C39_probe_complete.

(** An archive is only accepted if every object in its header is a file or a folder, not both. *)
Theorem C39_kinds transform header d calls : create_index transform header d = Ok calls -> forall e, inside header e -> one_kind e.
Proof. exact (create_kinds transform header d calls). Qed.
Print Assumptions C39_kinds.

(** The format knows more kinds of entries: symbolic links have a "link" and nothing else, unpacked files have a size and no
    offset.  One of them makes the whole archive unreadable. *)
Theorem C39_links_refuted transform fs n s d : In (n, Entry None s None) fs ->
  forall calls, create_index transform (Entry None None (Some fs)) d <> Ok calls.
Proof.
  intros I calls E. pose proof (create_kinds _ _ _ _ E (Entry None s None)) as K.
  destruct K as [(o & s' & X)|(o & s' & f & X & _)]; [|discriminate X|discriminate X].
  apply (inside_below _ None None fs n (Entry None s None)); [reflexivity|exact I|constructor].
Qed.
Print Assumptions C39_links_refuted.

(** ** Examples *)
Definition ex_file (o : Z) (s : Z) : entry := Entry (Some (JStr (py_str o))) (Some (JNum s)) None.
Definition ex_tree : entry :=
  Entry None None (Some [($"tmp", Entry None None (Some [])); ($"usr", Entry None None (Some [($"bin", Entry None None (Some [($"ls", ex_file 0 100)])); ($"a b", ex_file 100 3)])); ($"etc", ex_file 103 32)]).
Ltac proper := repeat split; try discriminate; intros H; repeat (destruct H as [H|H]; [discriminate H|]); exact H.
Example C39_example : tree_ok ex_tree /\ found ex_tree [$"usr"; $"bin"; $"ls"] (ex_file 0 100) /\
  match create_index (fun p => p) ex_tree 1000 with Ok calls => map (fun r => (full_path r, r_offset r, r_size r)) (concat calls) | Err _ => [] end =
  [($"/", 1000, 0); ($"/tmp", 1000, 0); ($"/usr", 1000, 0); ($"/etc", 1103, 32); ($"/usr/bin", 1000, 0); ($"/usr/a b", 1100, 3); ($"/usr/bin/ls", 1000, 100)].
Proof.
  assert (forall o s, tree_ok (ex_file o s)) as Ok1.
  { intros o s. apply (file_ok _ o s). exists (JStr (py_str o)), (JNum s). repeat split; constructor. }
  split; [|split; [|vm_compute; reflexivity]].
  - eapply folder_ok; [reflexivity| | |].
    + cbn. repeat constructor; cbn; intuition discriminate.
    + cbn. repeat apply Forall_cons; try apply Forall_nil; proper.
    + cbn. repeat apply Forall_cons; try apply Forall_nil; [|  |apply Ok1].
      * eapply folder_ok; [reflexivity| | |]; constructor.
      * eapply folder_ok; [reflexivity| | |].
        -- cbn. repeat constructor; cbn; intuition discriminate.
        -- cbn. repeat apply Forall_cons; try apply Forall_nil; proper.
        -- cbn. repeat apply Forall_cons; try apply Forall_nil; [|apply Ok1]. eapply folder_ok; [reflexivity| | |].
           ++ cbn. repeat constructor; cbn; intuition discriminate.
           ++ cbn. repeat apply Forall_cons; try apply Forall_nil; proper.
           ++ cbn. repeat apply Forall_cons; try apply Forall_nil; apply Ok1.
  - eapply found_below; [reflexivity|right; left; reflexivity|]. eapply found_below; [reflexivity|left; reflexivity|]. eapply found_below; [reflexivity|left; reflexivity|constructor].
Qed.

Example C39_archive_example : let json := $"some JSON text" in
  len json + 11 < 4294967296 /\ len $".." = padded (len json) - len json /\
  find_asar_header (asar_file json $".." $"contents") = Ok (16, 14, 32) /\
  zslice (asar_file json $".." $"contents") 32 8 = $"contents".
Proof. repeat split; reflexivity. Qed.
