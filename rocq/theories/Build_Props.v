(** Properties C11 and C12: what the finalized index holds. *)
From Coq Require Import Ascii String Sorting.Sorted Sorting.Permutation.
From Verif Require Import PyBase PyDict PyStr Path_Model Path_Spec Path_Proofs FileInfo Index_Model Index_Spec Index_Proofs Build_Proofs.
Local Open Scope Z_scope.

(** C11: for every sequence of single and batch insertions of backend rows, every inserted member is reached by listing
    folders from the root downwards, and every ancestor of a member (and the member) can be looked up. *)
Theorem C11_every_member_reachable :
  forall (history : list insertion) (sh1 sh2 : list row -> list row) (now uid gid : Z),
  any_order sh1 -> any_order sh2 ->
  (forall r, In r (inserted_rows history) -> backend_row r) ->
  forall r loc name, In r (inserted_rows history) -> member_row r loc name ->
  reached (fun p => option_map dkeys (index_list sh1 (build history) p)) (loc ++ [name]) /\
  (forall pre rest, loc ++ [name] = pre ++ rest -> lookup now uid gid sh2 (build history) (written pre) 0 <> None).
Proof. exact all_reached. Qed.
Print Assumptions C11_every_member_reachable.

(** An ancestor is seen as a folder unless the archive itself has an entry that is not a folder at that place. *)
Theorem C11_ancestors_are_folders_partial :
  forall (history : list insertion) (sh : list row -> list row) (now uid gid : Z),
  any_order sh ->
  (forall r, In r (inserted_rows history) -> backend_row r) ->
  forall r loc name, In r (inserted_rows history) -> member_row r loc name ->
  forall pre n rest, loc = pre ++ n :: rest ->
  (forall r', In r' (inserted_rows history) -> full_path r' = written (pre ++ [n]) -> is_dir_mode (r_mode r') = true) ->
  exists i, lookup now uid gid sh (build history) (written (pre ++ [n])) 0 = Some i /\ is_dir_mode (fi_mode i) = true.
Proof. exact ancestors_are_folders. Qed.
Print Assumptions C11_ancestors_are_folders_partial.

(** If every header offset belongs to one path, then some version of each ancestor has the folder bit of the mode (which
    block devices and sockets share). *)
Theorem C11_some_version_is_folder_partial :
  forall history : list insertion,
  (forall r, In r (inserted_rows history) -> backend_row r) ->
  (forall a b, In a (inserted_rows history) -> In b (inserted_rows history) ->
     r_offsetheader a = r_offsetheader b -> full_path a = full_path b) ->
  forall r loc name, In r (inserted_rows history) -> member_row r loc name ->
  forall pre n rest, loc = pre ++ n :: rest ->
  exists r', In r' (build history) /\ full_path r' = written (pre ++ [n]) /\ Z.land (r_mode r') S_IFDIR <> 0.
Proof.
  intros history Hb Hu r loc name Hr Hm pre n rest E.
  destruct (some_version_is_folder history Hb Hu r loc name Hr Hm pre n rest E) as (r' & H1 & H2 & H3).
  exists r'. split; [assumption|]. split; [assumption|]. unfold has_dir_bit in H3. apply negb_true_iff, Z.eqb_neq in H3. exact H3.
Qed.
Print Assumptions C11_some_version_is_folder_partial.

Definition brow (p n : str) (oh mode : Z) : row := mkRow p n oh (oh + 512) 0 0 mode 0 [] 0 0 false false false 0.

Lemma brow_backend p n oh mode loc : ~ In slash n -> Forall proper_name loc -> proper_name n -> p = folder_of loc ->
  backend_row (brow p n oh mode).
Proof.
  intros H1 H2 H3 ->. split; [exact H1|]. right. exists loc, n. split; [assumption|]. split; [assumption|].
  unfold full_path. cbn. now rewrite written_snoc.
Qed.

(** Decide [proper_name] of literals. *)
Ltac proper := repeat split; try discriminate; cbn; intuition discriminate.

Definition sample_history : list insertion :=
  [One (brow $"/a/b" $"f" 0 33188); Batch [brow [] $"x" 512 33188; brow $"/a" $"b" 1024 16877; brow $"/c/d" $"g" 1536 33188];
   One (brow $"/a/b" $"f" 0 33152)].

Lemma sample_backend : forall r, In r (inserted_rows sample_history) -> backend_row r.
Proof.
  intros r Hr. cbn in Hr. destruct Hr as [<-|[<-|[<-|[<-|[<-|[]]]]]].
  - apply (brow_backend _ _ _ _ [$"a"; $"b"]); try reflexivity; repeat constructor; proper.
  - apply (brow_backend _ _ _ _ []); try reflexivity; repeat constructor; proper.
  - apply (brow_backend _ _ _ _ [$"a"]); try reflexivity; repeat constructor; proper.
  - apply (brow_backend _ _ _ _ [$"c"; $"d"]); try reflexivity; repeat constructor; proper.
  - apply (brow_backend _ _ _ _ [$"a"; $"b"]); try reflexivity; repeat constructor; proper.
Qed.

Example C11_example :
  (forall r, In r (inserted_rows sample_history) -> backend_row r) /\
  option_map dkeys (index_list (fun l => l) (build sample_history) $"/") = Some [$"a"; $"x"; $"c"] /\
  option_map dkeys (index_list (fun l => l) (build sample_history) $"/c") = Some [$"d"] /\
  option_map dkeys (index_list (fun l => l) (build sample_history) $"/c/d") = Some [$"g"] /\
  option_map fi_mode (lookup 0 0 0 (fun l => l) (build sample_history) $"/a/b" 0) = Some 16877 /\
  option_map fi_mode (lookup 0 0 0 (fun l => l) (build sample_history) $"/c/d" 0) = Some 16749 /\
  versions 0 0 0 (fun l => l) (build sample_history) $"/a/b" = 1%nat.
Proof. split; [exact sample_backend|]. repeat split. Qed.

(** Not every ancestor is seen as a folder: after a/b, a (a file) and a/c, the newest a is the file although a/c came
    later, so a file system client cannot descend to either member. *)
Theorem C11_shadowed_folder_refuted :
  exists history : list insertion,
    (forall r, In r (inserted_rows history) -> backend_row r) /\
    inserted_rows history = [brow $"/a" $"b" 0 33188; brow [] $"a" 1024 33188; brow $"/a" $"c" 2048 33188] /\
    exists i, lookup 0 0 0 (fun l => l) (build history) $"/a" 0 = Some i /\ is_dir_mode (fi_mode i) = false.
Proof.
  exists [Batch [brow $"/a" $"b" 0 33188; brow [] $"a" 1024 33188; brow $"/a" $"c" 2048 33188]]. split.
  - intros r Hr. cbn in Hr. destruct Hr as [<-|[<-|[<-|[]]]].
    + apply (brow_backend _ _ _ _ [$"a"]); try reflexivity; repeat constructor; proper.
    + apply (brow_backend _ _ _ _ []); try reflexivity; repeat constructor; proper.
    + apply (brow_backend _ _ _ _ [$"a"]); try reflexivity; repeat constructor; proper.
  - split; [reflexivity|]. eexists. split; reflexivity.
Qed.
Print Assumptions C11_shadowed_folder_refuted.

(** A block device (or socket) at the place of a folder suppresses the folder row altogether: the bit test
    [mode & (1 << 14)] takes it for a folder, so no version of a is a folder. *)
Theorem C11_block_device_refuted :
  exists history : list insertion,
    (forall r, In r (inserted_rows history) -> backend_row r) /\
    (exists r, In r (inserted_rows history) /\ full_path r = $"/a/b") /\
    (exists r, In r (build history) /\ full_path r = $"/a") /\
    (forall r, In r (build history) -> full_path r = $"/a" -> is_dir_mode (r_mode r) = false).
Proof.
  exists [One (brow [] $"a" 0 25008); One (brow $"/a" $"b" 512 33188)]. split.
  - intros r Hr. cbn in Hr. destruct Hr as [<-|[<-|[]]].
    + apply (brow_backend _ _ _ _ []); try reflexivity; repeat constructor; proper.
    + apply (brow_backend _ _ _ _ [$"a"]); try reflexivity; repeat constructor; proper.
  - split; [exists (brow $"/a" $"b" 512 33188); split; [right; now left|reflexivity]|].
    split; [exists (brow [] $"a" 0 25008); split; [now left|reflexivity]|].
    intros r Hr. change (build _) with [brow [] $"a" 0 25008; brow $"/a" $"b" 512 33188] in Hr.
    destruct Hr as [<-|[<-|[]]]; [reflexivity|discriminate].
Qed.
Print Assumptions C11_block_device_refuted.

(** C12: the finalized table holds every last-inserted row unchanged; every other row was generated for an ancestor folder
    of an inserted row, at a path where no folder was inserted; the keys stay unique. *)
Theorem C12_finalize_loses_and_invents_nothing :
  forall history : list insertion,
  (forall r, In r (inserted_rows history) -> backend_row r) ->
  (forall r, last_inserted r (inserted_rows history) -> In r (build history)) /\
  (forall r, In r (build history) ->
     last_inserted r (inserted_rows history) \/
     exists below pre n, In below (inserted_rows history) /\ generated_for below r pre n /\
       forall r', last_inserted r' (inserted_rows history) -> full_path r' = full_path r -> is_dir_mode (r_mode r') = false) /\
  simple_names (build history) /\ unique_rows (build history).
Proof. exact built_rows. Qed.
Print Assumptions C12_finalize_loses_and_invents_nothing.

(** On the sample: the first row is replaced by the last one, /a, /c and /c/d are generated, /a/b is not. *)
Example C12_example :
  (forall r, In r (inserted_rows sample_history) -> backend_row r) /\
  map full_path (build sample_history) = [$"/x"; $"/a/b"; $"/c/d/g"; $"/a/b/f"; $"/a"; $"/c"; $"/c/d"] /\
  map r_mode (build sample_history) = [33188; 16877; 33188; 33152; 16749; 16749; 16749].
Proof. split; [exact sample_backend|]. split; reflexivity. Qed.
