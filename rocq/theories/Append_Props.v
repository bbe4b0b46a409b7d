(** Properties C45 and C63: archives that change after they were indexed. *)
From Coq Require Import Ascii String Sorting.Sorted Sorting.Permutation.
From Verif Require Import PyBase PyDict PyStr Path_Model Path_Spec Path_Proofs FileInfo Strip_Model Index_Model Index_Spec Index_Proofs Build_Proofs
  Tar_Model Tar_Spec Tar_Proofs Append_Model Append_Spec Append_Proofs Append_Tar Tar_Props.
Local Open Scope Z_scope.

(** C45: an archive is appended to, the part that was indexed is unchanged, its last member is no sparse file, and the archive is large
    enough.  Then the index is updated, and every lookup of a path gives what an index created from scratch gives.  The updated table
    holds every row of the one from scratch; a row that it has in addition is a folder that was generated for an old member and that the
    appended part holds explicitly.  [picked] is the random selection, [size_limit] and [file_limit] are the thresholds (64 MiB and 100
    in the code).  Missing: nested archives; see the refutations below. *)
Theorem C45_update_equals_scratch_partial :
  forall (transform : str -> str) (strip : bool) (remount : option (str -> str)) (picked : list row -> list row)
    (size_limit file_limit : Z) (limit : nat) (verify named : bool)
    (old new : list block) (members appended : list (nat * member * list block)) pos m body (old_mtime mtime : Z),
  tarball old (members ++ [(pos, m, body)]) -> tarball new (members ++ (pos, m, body) :: appended) -> appended <> [] -> plain_data m ->
  (forall files r, In r (picked files) -> In r files) ->
  let table := build (index_part transform strip remount false old 1 0 old [] 0) in
  let scratch := build (index_part transform strip remount false new 1 0 new [] 0) in
  bytes old <= bytes new <= 3 * bytes old -> old_mtime <= mtime -> size_limit <= bytes new -> file_limit <= Z.of_nat (length table) ->
  exists updated,
    open_index transform strip remount false 1 (fun t => t) picked size_limit file_limit limit verify false false true named
      (Some (mkStored (Some (bytes old)) (Some old_mtime))) new mtime table = Updated updated /\
    (forall sh1 sh2 now uid gid path, any_order sh1 -> any_order sh2 ->
       lookup now uid gid sh1 updated path 0 = lookup now uid gid sh2 scratch path 0) /\
    (forall r, In r scratch -> In r updated) /\
    (forall r, In r updated -> In r scratch \/
       (exists below pre n, In below table /\ generated_for below r pre n) /\
       exists r', In r' scratch /\ full_path r' = full_path r /\ r_offsetheader r < r_offsetheader r' /\ Z.land (r_mode r') S_IFDIR <> 0).
Proof.
  intros transform strip remount picked size_limit file_limit limit verify named old new ms app pos m body old_mtime mtime Ho Hn Ha Hp Hpick table scratch Hs Hm H1 H2.
  set (last := (pos, m, body)) in *.
  pose proof (past_end_is transform strip remount old new ms last app Ho Hn Hp) as Epast. fold table in Epast.
  pose proof (rows_valid transform strip remount old new ms last app Ho Hn) as Hrows. fold table in Hrows.
  pose proof (update_is transform strip remount old new ms last app Hn) as Eup. fold table in Eup.
  destruct (updated_rows transform strip remount old new ms last app Ho Hn) as (U1 & U2 & _). fold table in U1, U2. fold scratch in U1, U2.
  exists (update_table table [Batch (flat_map (member_rows transform) app)]). split; [|split; [|split; [exact U1|]]].
  - unfold open_index. change (file_size new) with (bytes new).
    assert (Emark : try_to_mark size_limit file_limit false false true (mkStored (Some (bytes old)) (Some old_mtime)) (bytes new) mtime (Z.of_nat (length table)) = Ok true).
    { unfold try_to_mark. cbn [st_size st_mtime]. destruct (Z.ltb_spec (bytes new) (bytes old)); [lia|]. destruct (Z.ltb_spec mtime old_mtime); [lia|].
      destruct (Z.ltb_spec (bytes new) size_limit); [lia|]. destruct (Z.ltb_spec (Z.of_nat (length table)) file_limit); [lia|].
      destruct (Z.ltb_spec (3 * bytes old) (bytes new)); [lia|]. reflexivity. }
    assert (Ne : ends_at new (512 * Z.of_nat (ends last)) = false).
    { unfold ends_at. replace (512 * Z.of_nat (ends last) / 512) with (Z.of_nat (ends last)) by (apply Z.div_unique_exact; lia). rewrite Nat2Z.id.
      pose proof (next_block transform new ms last app Hn) as N. destruct app; [contradiction|]. destruct N as (m' & rest & ->). reflexivity. }
    assert (Nz : (512 * Z.of_nat (ends last) =? 0) = false) by (apply Z.eqb_neq; unfold last; cbn [ends]; lia).
    assert (Sel : forall n k r, In r (firstn n (sort_by k (filter regular_row table))) -> In r table /\ regular_row r = true).
    { intros n k r H. assert (In r (sort_by k (filter regular_row table))) as H' by (rewrite <- (firstn_skipn n); apply in_app_iff; now left).
      apply (Permutation_in _ (sort_perm _ _)) in H'. now apply filter_In in H'. }
    assert (Echeck : check transform (fun t => t) size_limit file_limit verify false false true named
              (Some (mkStored (Some (bytes old)) (Some old_mtime))) new (bytes new) mtime table = Ok true).
    { unfold check. cbn [st_size st_mtime]. rewrite Emark, Epast. destruct (Z.ltb_spec (bytes new) (bytes old)); [lia|].
      assert (E1 : bind (if bytes old <? bytes new then Ok true else Ok false)
        (fun marked => bind (@Ok (option Z) (Some (512 * Z.of_nat (ends last)))) (fun last0 =>
          bind (match last0 with
            | Some offset => if false || (offset =? 0) || ends_at new offset then Ok marked else bind (Ok true) (fun again => Ok (marked || again))
            | None => Ok marked end) (fun marked0 => if negb marked0 && verify && negb (mtime =? old_mtime) then Err RatarmountError else Ok marked0))) = Ok true).
      { cbn [bind]. rewrite Ne, Nz. cbn [orb bind]. destruct (bytes old <? bytes new); reflexivity. }
      rewrite E1. cbn [bind]. destruct named; [reflexivity|]. rewrite Hrows; [reflexivity|]. intros r Hr. now apply (Sel 2%nat r_offset). }
    rewrite Echeck, Epast, Nz. cbn [orb]. rewrite Hrows.
    + pose proof (update_fits new ms last app Hn) as F. change (file_size new) with (bytes new) in F. destruct (Z.ltb_spec (bytes new) (512 * Z.of_nat (ends last))); [lia|]. now rewrite Eup.
    + intros r Hr. unfold checked_rows in Hr. apply in_app_iff in Hr as [Hr|Hr]; [now apply (Sel limit r_offset)|]. apply in_app_iff in Hr as [Hr|Hr]; [|now apply (Sel limit (fun r => - r_offset r))].
      apply Hpick in Hr. now apply filter_In in Hr.
  - intros sh1 sh2 now uid gid path A1 A2. exact (updated_lookup transform strip remount old new ms last app Ho Hn sh1 sh2 now uid gid path A1 A2).
  - intros r Hr. destruct (U2 r Hr) as [H|[(b & pre & n & Hb & G) (r' & Hs' & Hr' & Ef & D)]]; [now left|right]. split.
    + exists b, pre, n. split; [|assumption]. destruct (table_rows transform strip remount old new ms last app Ho Hn) as (extra & Et & _). fold table in Et. rewrite Et.
      apply in_app_iff. now left.
    + exists r'. split; [assumption|]. split; [assumption|]. split.
      * destruct G as (_ & _ & _ & _ & _ & _ & _ & _ & _ & -> & _). exact (sorted_app_lt _ _ _ b r' (all_sorted transform new ms last app Hn) Hb Hr').
      * unfold has_dir_bit in D. apply negb_true_iff, Z.eqb_neq in D. exact D.
Qed.
Print Assumptions C45_update_equals_scratch_partial.

(** An archive with a/x; then the explicit folder a and the file a/y are appended. *)
Definition old_tar : list block := [Head (plain $"a/x" "0" 600 1 2); Other 0; Other 1; Other 2; Zero; Zero; Zero].
Definition new_tar : list block := [Head (plain $"a/x" "0" 600 1 2); Other 0; Other 1; Other 2; Head (plain $"a" "5" 0 0 0); Head (plain $"a/y" "0" 5 0 1); Other 3; Zero; Zero].
Lemma old_layout : tarball old_tar ([] ++ [(0%nat, plain $"a/x" "0" 600 1 2, [Other 1; Other 2])]).
Proof. apply (tar_member (plain $"a/x" "0" 600 1 2) [Other 0] [Other 1; Other 2] [Zero; Zero; Zero] []); try reflexivity. apply tar_end. right. now exists [Zero; Zero]. Qed.
Lemma new_layout : tarball new_tar ([] ++ (0%nat, plain $"a/x" "0" 600 1 2, [Other 1; Other 2]) ::
  [(4%nat, plain $"a" "5" 0 0 0, []); (5%nat, plain $"a/y" "0" 5 0 1, [Other 3])]).
Proof.
  apply (tar_member (plain $"a/x" "0" 600 1 2) [Other 0] [Other 1; Other 2] [Head (plain $"a" "5" 0 0 0); Head (plain $"a/y" "0" 5 0 1); Other 3; Zero; Zero]
    [(0%nat, plain $"a" "5" 0 0 0, []); (1%nat, plain $"a/y" "0" 5 0 1, [Other 3])]); try reflexivity.
  apply (tar_member (plain $"a" "5" 0 0 0) [] [] [Head (plain $"a/y" "0" 5 0 1); Other 3; Zero; Zero] [(0%nat, plain $"a/y" "0" 5 0 1, [Other 3])]); try reflexivity.
  apply (tar_member (plain $"a/y" "0" 5 0 1) [] [Other 3] [Zero; Zero] []); try reflexivity. apply tar_end. right. now exists [Zero].
Qed.

Definition index_of (levels : nat) (archive : list block) : list row := build (index_part (fun p => p) false None false archive levels 0 archive [] 0).
Definition reopen (levels : nat) (read_only verify : bool) (old new : list block) (old_mtime mtime : Z) : outcome :=
  open_index (fun p => p) false None false levels (fun t => t) (fun _ => []) 1024 1 1 verify false read_only true true
    (Some (mkStored (Some (bytes old)) (Some old_mtime))) new mtime (index_of levels old).

(** The updated table has the generated folder /a (a second version) besides the three rows of the table from scratch. *)
Example C45_example :
  plain_data (plain $"a/x" "0" 600 1 2) /\
  (exists u, reopen 1 false true old_tar new_tar 7 8 = Updated u /\
     map (fun r => (full_path r, r_offsetheader r)) u = [($"/a/x", 0); ($"/a", 0); ($"/a", 2048); ($"/a/y", 2560)]) /\
  map (fun r => (full_path r, r_offsetheader r)) (index_of 1 new_tar) = [($"/a/x", 0); ($"/a", 2048); ($"/a/y", 2560)].
Proof. split; [repeat split; cbn; lia|]. split; [|reflexivity]. eexists. split; reflexivity. Qed.

(** So the number of versions of a folder may differ from that of an index from scratch. *)
Theorem C45_versions_differ_refuted :
  exists u, reopen 1 false true old_tar new_tar 7 8 = Updated u /\
    versions 0 0 0 (fun l => l) u $"/a" = 2%nat /\ versions 0 0 0 (fun l => l) (index_of 1 new_tar) $"/a" = 1%nat.
Proof. eexists. split; [reflexivity|]. split; reflexivity. Qed.
Print Assumptions C45_versions_differ_refuted.

(** The update is accepted only if the first and the last regular files of the table, up to [limit] of each, still have their headers in
    the archive.  The archive has not shrunk, is not older, has grown to at most three times its size and is large enough; the index is
    writable and of the current version.  (All header offsets in an index of a TAR archive are multiples of 512, except those of rows
    for folders.) *)
Theorem C45_boundary_is_checked :
  forall transform strip remount ignore_zeros levels tie picked size_limit file_limit limit verify compressed read_only same_version named
    old_size old_mtime new mtime table updated,
  (forall r, In r table -> regular_file r -> exists pos : nat, r_offsetheader r = 512 * Z.of_nat pos) ->
  open_index transform strip remount ignore_zeros levels tie picked size_limit file_limit limit verify compressed read_only same_version named
    (Some (mkStored (Some old_size) (Some old_mtime))) new mtime table = Updated updated ->
  old_size <= bytes new <= 3 * old_size /\ old_mtime <= mtime /\ size_limit <= bytes new /\ file_limit <= Z.of_nat (length table) /\
  compressed = false /\ read_only = false /\ same_version = true /\
  forall r, among_first limit table r \/ among_last limit table r -> header_at transform new r.
Proof.
  intros transform strip remount ig levels tie picked size_limit file_limit limit verify compressed read_only same_version named old_size old_mtime new mtime table updated Hal H.
  unfold open_index in H. set (stats := mkStored (Some old_size) (Some old_mtime)) in *. change (file_size new) with (bytes new) in H.
  assert (Hno : forall t, (match create_index transform strip remount ig levels new with Ok t => Recreated t | Err e => Failed e end) <> Updated t) by (intros t; destruct (create_index _ _ _ _ _ _); discriminate).
  destruct (check _ _ _ _ _ _ _ _ _ _ _ _ _ _) as [[|]|] eqn:Ec; [|discriminate|exfalso; now apply (Hno updated)].
  destruct (past_end tie table) as [[offset|]|] eqn:Ep; [|exfalso; now apply (Hno updated)|discriminate].
  destruct (compressed || (offset =? 0)); [exfalso; now apply (Hno updated)|].
  destruct (check_rows transform new (checked_rows picked limit table)) eqn:Er; [|exfalso; now apply (Hno updated)|discriminate].
  apply marked in Ec as (_ & Hm & _). specialize (Hm eq_refl).
  unfold try_to_mark in Hm. cbn [st_size st_mtime stats] in Hm.
  destruct (Z.ltb_spec (bytes new) old_size); [discriminate|]. destruct (Z.ltb_spec mtime old_mtime); [discriminate|]. destruct compressed; [discriminate|]. destruct read_only; [discriminate|].
  destruct (Z.ltb_spec (bytes new) size_limit); [discriminate|]. destruct (Z.ltb_spec (Z.of_nat (length table)) file_limit); [discriminate|].
  destruct (Z.ltb_spec (3 * old_size) (bytes new)); [discriminate|]. destruct same_version; [|discriminate].
  repeat (split; [lia || reflexivity|]). intros r Hr.
  assert (Hc : In r (checked_rows picked limit table)) by (destruct Hr; [now apply first_checked|now apply last_checked]).
  assert (Ht : In r table /\ regular_file r).
  { assert (Hg : In r (regular_files table)) by (destruct Hr as [[? _]|[? _]]; assumption). apply filter_In in Hg as [? E]. apply Z.eqb_eq in E. split; assumption. }
  destruct (Hal r (proj1 Ht) (proj2 Ht)) as [pos E]. apply (check_row_header transform new r pos E). exact (check_rows_all _ _ _ Er r Hc).
Qed.
Print Assumptions C45_boundary_is_checked.

(** In the example, /a/x is among the last one and the first one. *)
Example C45_boundary_example :
  among_last 1 (index_of 1 old_tar) (file_row (fun p => p) [] 0 0 0 (plain $"a/x" "0" 600 1 2)) /\
  among_first 1 (index_of 1 old_tar) (file_row (fun p => p) [] 0 0 0 (plain $"a/x" "0" 600 1 2)) /\
  (forall r, In r (index_of 1 old_tar) -> regular_file r -> exists pos : nat, r_offsetheader r = 512 * Z.of_nat pos).
Proof.
  split; [|split].
  - split; [left; reflexivity|vm_compute; lia].
  - split; [left; reflexivity|vm_compute; lia].
  - intros r [<-|[<-|[]]] _; now exists 0%nat.
Qed.

(** The members in between are not checked: a member was replaced by another one of the same length, and the archive was appended to.
    With one row checked at each end and none in between, the update keeps the replaced member. *)
Definition three (x : str) : list block := [Head (plain $"a" "0" 0 0 0); Head (plain x "0" 0 0 0); Head (plain $"c" "0" 512 0 1); Other 0].
Theorem C45_changed_middle_refuted :
  exists u, reopen 1 false true (three $"b" ++ [Zero; Zero]) (three $"x" ++ [Head (plain $"d" "0" 0 0 0); Zero; Zero]) 7 8 = Updated u /\
    map full_path u = [$"/a"; $"/b"; $"/c"; $"/d"].
Proof. eexists. split; reflexivity. Qed.
Print Assumptions C45_changed_middle_refuted.

(** A TAR in a TAR is the last member, and it is indexed, too: its members are the ones with the greatest offset, so that the position
    of the appended part is taken to be inside of it.  The zero blocks of the nested archive are found there, and therefore nothing of
    the appended part is added. *)
Definition nested : list block :=
  [Head (plain $"a.tar" "0" 1536 0 3); Head (plain $"y" "0" 0 0 0); Zero; Zero].
Theorem C45_nested_last_refuted :
  exists u, reopen 2 false true (nested ++ [Zero; Zero]) (nested ++ [Head (plain $"z" "0" 0 0 0); Zero; Zero]) 7 8 = Updated u /\
    map full_path u = [$"/a.tar/y"; $"/a.tar"; $"/a.tar"] /\
    map full_path (index_of 2 (nested ++ [Head (plain $"z" "0" 0 0 0); Zero; Zero])) = [$"/z"; $"/a.tar/y"; $"/a.tar"; $"/a.tar"].
Proof. eexists. split; [reflexivity|]. split; reflexivity. Qed.
Print Assumptions C45_nested_last_refuted.

(** tar also writes the appended members over the zero blocks that end an archive.  If the size stays the same, the index is taken as
    it is (without verification of the modification time). *)
Theorem C45_nested_last_stale_refuted :
  exists t, reopen 2 false false (nested ++ [Zero; Zero; Zero]) (nested ++ [Head (plain $"z" "0" 0 0 0); Zero; Zero]) 7 8 = Used t /\
    map full_path t = [$"/a.tar/y"; $"/a.tar"; $"/a.tar"].
Proof. eexists. split; reflexivity. Qed.
Print Assumptions C45_nested_last_stale_refuted.

(** A hard link with a nonzero size (its data is that of its target) is the last member: the position is too late. *)
Definition linked : list block := [Head (plain $"a" "0" 512 0 1); Other 0; Head (plain $"b" "1" 512 0 0)].
Theorem C45_hard_link_last_refuted :
  exists u, reopen 1 false true (linked ++ [Zero; Zero]) (linked ++ [Head (plain $"z" "0" 0 0 0); Zero; Zero]) 7 8 = Updated u /\
    map full_path u = [$"/a"; $"/b"] /\
    map full_path (index_of 1 (linked ++ [Head (plain $"z" "0" 0 0 0); Zero; Zero])) = [$"/a"; $"/b"; $"/z"].
Proof. eexists. split; [reflexivity|]. split; reflexivity. Qed.
Print Assumptions C45_hard_link_last_refuted.

(** The row with the greatest offset is not unique: with the other order of equal offsets the position is inside the last member (here:
    the generated folder /a has the offset of /a/x, and size 0), and the data of that member is read as headers. *)
Theorem C45_equal_offsets_refuted :
  past_end (fun t => t) (index_of 1 old_tar) = Ok (Some 2048) /\ past_end (@rev row) (index_of 1 old_tar) = Ok (Some 1024).
Proof. split; reflexivity. Qed.
Print Assumptions C45_equal_offsets_refuted.

(** C63: an index that was found is used as it is only if the archive has not shrunk since; if its modification time is the recorded
    one or need not be verified; and, if the index is writable, if the size is the recorded one and an uncompressed archive has its end
    marker right after the last row. *)
Theorem C63_used_index_fits :
  forall transform strip remount ignore_zeros levels tie picked size_limit file_limit limit verify compressed read_only same_version named
    old_size old_mtime archive mtime table used,
  open_index transform strip remount ignore_zeros levels tie picked size_limit file_limit limit verify compressed read_only same_version named
    (Some (mkStored (Some old_size) (Some old_mtime))) archive mtime table = Used used ->
  used = table /\ old_size <= bytes archive /\ (verify = true -> mtime = old_mtime) /\
  (read_only = false \/ compressed = true \/ mtime < old_mtime -> bytes archive = old_size) /\
  (read_only = false -> compressed = false ->
   forall offset, past_end tie table = Ok (Some offset) -> 0 < offset -> end_marker_at archive offset).
Proof.
  intros transform strip remount ig levels tie picked size_limit file_limit limit verify compressed read_only same_version named old_size old_mtime archive mtime table used H.
  unfold open_index in H. set (stats := mkStored (Some old_size) (Some old_mtime)) in *. change (file_size archive) with (bytes archive) in H.
  assert (Hno : forall t, (match create_index transform strip remount ig levels archive with Ok t => Recreated t | Err e => Failed e end) <> Used t) by (intros t; destruct (create_index _ _ _ _ _ _); discriminate).
  destruct (check _ _ _ _ _ _ _ _ _ _ _ _ _ _) as [[|]|] eqn:Ec; [| |exfalso; now apply (Hno used)].
  { exfalso. destruct (past_end tie table) as [[offset|]|]; [|now apply (Hno used)|discriminate]. destruct (_ || _); [now apply (Hno used)|].
    destruct (check_rows _ _ _); [destruct (_ <? _); discriminate|now apply (Hno used)|discriminate]. }
  apply marked in Ec as (Hs & _ & Hm). destruct (Hm eq_refl) as (Hg & Hv & last & Ep & Hl). fold stats in Hg, Hl.
  injection H as <-. split; [reflexivity|]. split; [assumption|]. split; [assumption|].
  assert (Hmark : try_to_mark size_limit file_limit compressed read_only same_version stats (bytes archive) mtime (Z.of_nat (length table)) = Ok false -> read_only = true /\ compressed = false /\ old_mtime <= mtime).
  { clear. unfold try_to_mark. cbn [st_size st_mtime stats]. destruct (_ <? old_size); [discriminate|]. destruct (Z.ltb_spec mtime old_mtime); [discriminate|]. destruct compressed; [discriminate|].
    destruct read_only; [auto|]. destruct (_ <? _); [discriminate|]. destruct (_ <? _); [discriminate|]. destruct (_ <? _); [discriminate|]. destruct same_version; discriminate. }
  split.
  - intros Hc. destruct (Z.eq_dec (bytes archive) old_size) as [E|N]; [assumption|exfalso]. assert (L : old_size < bytes archive) by lia. apply Hg, Hmark in L as (-> & -> & L).
    destruct Hc as [|[|]]; try discriminate. lia.
  - intros -> -> offset E Hp. assert (last = Some offset) by congruence. destruct (Hl offset) as [C|[C|[C|C]]]; [assumption|discriminate|lia| |].
    + apply ends_at_spec; [lia|assumption].
    + apply Hmark in C as [C _]. discriminate.
Qed.
Print Assumptions C63_used_index_fits.

(** The unchanged archive is opened with its index, and its end marker follows /a/x; the grown one is not. *)
Example C63_example :
  reopen 1 false true old_tar old_tar 7 7 = Used (index_of 1 old_tar) /\ end_marker_at old_tar 2048 /\
  (exists u, reopen 1 true true old_tar old_tar 7 9 = Recreated u) /\ exists u, reopen 1 false true old_tar new_tar 7 9 = Updated u.
Proof. split; [reflexivity|]. split; [exists 4%nat; repeat split|]. split; eexists; reflexivity. Qed.

(** If the archive is unchanged, has its end marker and no excess blocks that matter, the index is used: nothing is indexed again. *)
Theorem C63_unchanged_archive_uses_index :
  forall transform strip remount picked size_limit file_limit limit verify read_only same_version named archive members pos m body rest mtime,
  tarball archive (members ++ [(pos, m, body)]) -> plain_data m ->
  skipn (pos + 1 + m_extra m + m_blocks m) archive = Zero :: Zero :: rest ->
  let table := build (index_part transform strip remount false archive 1 0 archive [] 0) in
  open_index transform strip remount false 1 (fun t => t) picked size_limit file_limit limit verify false read_only same_version named
    (Some (mkStored (Some (bytes archive)) (Some mtime))) archive mtime table = Used table.
Proof.
  intros transform strip remount picked size_limit file_limit limit verify read_only same_version named archive ms pos m body rest mtime Ht Hp Hr table.
  set (last := (pos, m, body)) in *.
  pose proof (past_end_is transform strip remount archive archive ms last [] Ht Ht Hp) as Epast. fold table in Epast.
  pose proof (rows_valid transform strip remount archive archive ms last [] Ht Ht) as Hrows. fold table in Hrows.
  assert (Ne : ends_at archive (512 * Z.of_nat (ends last)) = true).
  { unfold ends_at. replace (512 * Z.of_nat (ends last) / 512) with (Z.of_nat (ends last)) by (apply Z.div_unique_exact; lia). rewrite Nat2Z.id.
    unfold last. cbn [ends]. replace (skipn _ archive) with (Zero :: Zero :: rest); reflexivity. }
  unfold open_index. change (file_size archive) with (bytes archive).
  assert (Ec : check transform (fun t => t) size_limit file_limit verify false read_only same_version named (Some (mkStored (Some (bytes archive)) (Some mtime))) archive (bytes archive) mtime table = Ok false).
  { unfold check. cbn [st_size st_mtime]. rewrite Epast, !Z.ltb_irrefl. cbn [bind]. rewrite Ne, orb_true_r. cbn [bind]. rewrite Z.eqb_refl, andb_false_r. cbn [bind].
    destruct named; [reflexivity|]. rewrite Hrows; [reflexivity|]. intros r H.
    assert (In r (sort_by r_offset (filter regular_row table))) as H' by (rewrite <- (firstn_skipn 2); apply in_app_iff; now left).
    apply (Permutation_in _ (sort_perm _ _)) in H'. now apply filter_In in H'. }
  now rewrite Ec.
Qed.
Print Assumptions C63_unchanged_archive_uses_index.

(** A read-only index of an archive that has grown is used as it is; the appended members are missing. *)
Theorem C63_read_only_stale_refuted :
  exists t, reopen 1 true false old_tar new_tar 7 8 = Used t /\ map full_path t = [$"/a/x"; $"/a"] /\ bytes old_tar < bytes new_tar.
Proof. eexists. split; [reflexivity|]. split; reflexivity. Qed.
Print Assumptions C63_read_only_stale_refuted.

(** Without verification of the modification time, a changed archive of the same size is accepted. *)
Theorem C63_same_size_refuted :
  exists t, reopen 1 false false (three $"b" ++ [Zero; Zero]) (three $"x" ++ [Zero; Zero]) 7 8 = Used t /\ map full_path t = [$"/a"; $"/b"; $"/c"].
Proof. eexists. split; reflexivity. Qed.
Print Assumptions C63_same_size_refuted.

(** A truncated archive: it can be opened without an index, but not with the index that this creates. *)
Definition truncated : list block := [Head (plain $"a" "0" 1024 0 2); Other 0].
Theorem C63_truncated_archive_refuted :
  (exists t, create_index (fun p => p) false None false 1 truncated = Ok t /\ t <> []) /\ reopen 1 false true truncated truncated 7 7 = Failed AssertionError.
Proof. split; [eexists; split; [reflexivity|discriminate]|reflexivity]. Qed.
Print Assumptions C63_truncated_archive_refuted.

(** If the place of a checked header holds no header any more, the archive cannot be opened although it could be indexed again. *)
Theorem C63_header_gone_refuted :
  let new := [Head (plain $"a" "0" 0 0 0); Head (plain $"y" "0" 1024 0 2); Other 1; Other 2; Head (plain $"z" "0" 0 0 0); Zero; Zero] in
  reopen 1 false true (three $"b" ++ [Zero; Zero]) new 7 8 = Failed RuntimeError /\
  exists t, create_index (fun p => p) false None false 1 new = Ok t /\ t <> [].
Proof. split; [reflexivity|]. eexists. split; [reflexivity|discriminate]. Qed.
Print Assumptions C63_header_gone_refuted.
