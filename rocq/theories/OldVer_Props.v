(** Property C129: old versions of files in a mounted TAR archive. *)
From Coq Require Import Ascii String Permutation.
From Verif Require Import PyBase PyDict PyStr PyInt Path_Model Path_Spec Path_Proofs FileInfo Union_Model Index_Model Index_Spec Index_Proofs Build_Proofs
  Version_Model MemFile_Spec Tar_Model Tar_Spec Tar_Proofs TarRead_Model TarRead_Spec TarRead_Proofs
  Front_Spec Front_Model Served_Spec Served_Model Served_Proofs Served_Props Ls_Spec Ls_Model Ls_Proofs OldVer_Spec OldVer_Proofs.
Local Open Scope Z_scope.

Lemma nth_some {X} (k : list X) i x : nth_error k i = Some x -> k <> [].
Proof. intros H ->. now destruct i. Qed.

(** C129: of a path that occurs several times in the archive, and for which the archive itself has nothing called PATH.versions, every
    occurrence that is a regular file can be opened as PATH.versions/K, where K counts the occurrences from 1, and whatever other requests come
    before and in between, every read gives the bytes of that occurrence. *)
Theorem C129_open_and_read :
  forall (A : Type) (render : block -> list A) (transform : str -> str) (strip : bool) (remount : option (str -> str)) (archive : list block) l,
  (forall b, length (render b) = 512%nat) -> tarball archive l ->
  forall now uid gid loc n k pos m body, leaf transform l (loc ++ [n]) -> nothing_at transform l (loc ++ [n ++ $".versions"]) ->
  nth_error (versions_at transform l (loc ++ [n])) k = Some (pos, m, body) -> regular_file m body ->
  let rows := build (index_part transform strip remount false archive 1 0 archive [] 0) in
  let serve := serve now uid gid rows (bytes_of render archive) in
  let serve_all := serve_all now uid gid rows (bytes_of render archive) in
  forall before sh, any_order sh ->
  exists fh st, serve (serve_all mounted before) (sh, KOpen (written (loc ++ [n ++ $".versions"; py_str (Z.of_nat k + 1)]))) = (RHandle fh, st) /\
    forall between, (forall sh', ~ In (sh', KRelease fh) between) ->
    forall sh' path size offset, 0 <= offset -> 0 <= size ->
      fst (serve (serve_all st between) (sh', KRead path size offset fh)) = RData (bytes_at (content_of render m body) offset size).
Proof.
  intros A render transform strip remount archive l Hr Ht now uid gid loc n k pos m body Hl Hf Hk Rf rows serve serve_all before sh Hsh.
  pose proof (version_served transform strip remount archive l Ht now uid gid sh Hsh loc n Hl Hf (nth_some _ _ _ Hk) (Z.of_nat k + 1) ltac:(lia)) as L.
  replace (Z.to_nat (Z.of_nat k + 1 - 1)) with k in L by lia. rewrite Hk in L. cbn [fst snd] in L.
  apply nth_error_In in Hk. apply versions_In in Hk as [I _].
  exact (opened_reads transform strip remount archive l Ht now uid gid sh render pos m body _ Hr I Rf L (serve_all mounted before)).
Qed.
Print Assumptions C129_open_and_read.

(** The attributes of PATH.versions/K are those of the K-th occurrence. *)
Theorem C129_stat :
  forall (A : Type) (bytes : list A) (transform : str -> str) (strip : bool) (remount : option (str -> str)) (archive : list block) l, tarball archive l ->
  forall now uid gid loc n k pos m body, leaf transform l (loc ++ [n]) -> nothing_at transform l (loc ++ [n ++ $".versions"]) ->
  nth_error (versions_at transform l (loc ++ [n])) k = Some (pos, m, body) -> forall bits, type_bits (m_type m) bits ->
  let rows := build (index_part transform strip remount false archive 1 0 archive [] 0) in
  forall st sh, any_order sh ->
  exists s, serve now uid gid rows bytes st (sh, KStat (written (loc ++ [n ++ $".versions"; py_str (Z.of_nat k + 1)]))) = (RStat s, st) /\
    st_size s = m_size m /\ st_mode s = Z.lor (m_mode m) bits /\ st_uid s = m_uid m /\ st_gid s = m_gid m /\ st_mtime s = m_mtime m * 1000000000.
Proof.
  intros A bytes transform strip remount archive l Ht now uid gid loc n k pos m body Hl Hf Hk bits Tb rows st sh Hsh.
  pose proof (version_served transform strip remount archive l Ht now uid gid sh Hsh loc n Hl Hf (nth_some _ _ _ Hk) (Z.of_nat k + 1) ltac:(lia)) as L.
  replace (Z.to_nat (Z.of_nat k + 1 - 1)) with k in L by lia. rewrite Hk in L. cbn [fst snd] in L.
  pose proof (file_row_fields transform [] 0 0 pos m) as (F1 & F2 & F3 & F4 & F5 & F6 & F7 & F8 & F9 & F10 & F11).
  unfold serve, rows. cbn [fst snd]. rewrite L. eexists. split; [reflexivity|].
  cbn [served_info row_to_file_info st_size st_mode st_uid st_gid st_mtime fi_size fi_mode fi_uid fi_gid fi_mtime].
  rewrite F5, F7, F9, F10, F6. split; [reflexivity|]. split; [|auto].
  unfold full_mode, isdir, isfile, issym, ischr, isfifo. unfold type_bits in Tb.
  repeat (destruct Tb as [Tb|Tb]; [injection Tb as <- <-; cbn; now rewrite ?Z.lor_0_r|]). destruct Tb.
Qed.
Print Assumptions C129_stat.

(** There are no further versions. *)
Theorem C129_no_more :
  forall (A : Type) (bytes : list A) (transform : str -> str) (strip : bool) (remount : option (str -> str)) (archive : list block) l, tarball archive l ->
  forall now uid gid loc n k, leaf transform l (loc ++ [n]) -> nothing_at transform l (loc ++ [n ++ $".versions"]) ->
  versions_at transform l (loc ++ [n]) <> [] -> (length (versions_at transform l (loc ++ [n])) <= k)%nat ->
  let rows := build (index_part transform strip remount false archive 1 0 archive [] 0) in
  let path := written (loc ++ [n ++ $".versions"; py_str (Z.of_nat k + 1)]) in
  forall st sh, any_order sh ->
  serve now uid gid rows bytes st (sh, KStat path) = (RErr (OSErr 2), st) /\ serve now uid gid rows bytes st (sh, KOpen path) = (RErr (OSErr 2), st).
Proof.
  intros A bytes transform strip remount archive l Ht now uid gid loc n k Hl Hf Hs Hk rows path st sh Hsh.
  pose proof (version_served transform strip remount archive l Ht now uid gid sh Hsh loc n Hl Hf Hs (Z.of_nat k + 1) ltac:(lia)) as L.
  replace (Z.to_nat (Z.of_nat k + 1 - 1)) with k in L by lia. rewrite (proj2 (nth_error_None _ _) Hk) in L.
  unfold serve, rows. cbn [fst snd]. unfold path. rewrite L. split; reflexivity.
Qed.
Print Assumptions C129_no_more.

(** PATH.versions is a folder that everybody may use, with the time and the owner of the last occurrence; it cannot be opened as a file. *)
Theorem C129_folder :
  forall (A : Type) (bytes : list A) (transform : str -> str) (strip : bool) (remount : option (str -> str)) (archive : list block) l, tarball archive l ->
  forall now uid gid loc n before pos m body, leaf transform l (loc ++ [n]) -> nothing_at transform l (loc ++ [n ++ $".versions"]) ->
  versions_at transform l (loc ++ [n]) = before ++ [(pos, m, body)] ->
  let rows := build (index_part transform strip remount false archive 1 0 archive [] 0) in
  let path := written (loc ++ [n ++ $".versions"]) in
  forall st sh, any_order sh ->
  (exists s, serve now uid gid rows bytes st (sh, KStat path) = (RStat s, st) /\
     st_size s = 0 /\ st_mode s = 16895 /\ st_uid s = m_uid m /\ st_gid s = m_gid m /\ st_mtime s = m_mtime m * 1000000000) /\
  serve now uid gid rows bytes st (sh, KOpen path) = (RErr (OSErr 5), st).
Proof.
  intros A bytes transform strip remount archive l Ht now uid gid loc n before pos m body Hl Hf Hs rows path st sh Hsh.
  destruct (folder_served transform strip remount archive l Ht now uid gid sh Hsh loc n Hl Hf ltac:(rewrite Hs; now destruct before)) as (pos' & m' & body' & b & E & L).
  rewrite Hs in E. apply app_inj_tail in E as [_ E]. injection E as <- <- <-.
  unfold serve, rows. cbn [fst snd]. unfold path. rewrite L. split; [|reflexivity]. eexists. split; [reflexivity|]. repeat split; reflexivity.
Qed.
Print Assumptions C129_folder.

(** Its entries are the numbers from 1 to the number of occurrences. *)
Theorem C129_list :
  forall (transform : str -> str) (strip : bool) (remount : option (str -> str)) (archive : list block) l, tarball archive l ->
  forall now uid gid mode sh loc n, any_order sh -> leaf transform l (loc ++ [n]) -> nothing_at transform l (loc ++ [n ++ $".versions"]) ->
  versions_at transform l (loc ++ [n]) <> [] ->
  let rows := build (index_part transform strip remount false archive 1 0 archive [] 0) in
  ls now uid gid rows mode sh (written (loc ++ [n ++ $".versions"])) =
    Ok (($".", None) :: ($"..", None) :: map (fun k => (py_str (Z.of_nat k), None)) (seq 1 (length (versions_at transform l (loc ++ [n]))))).
Proof.
  intros transform strip remount archive l Ht now uid gid mode sh loc n Hsh Hl Hf Hs rows.
  exact (folder_listed transform strip remount archive l Ht now uid gid sh Hsh loc n Hl Hf Hs mode).
Qed.
Print Assumptions C129_list.

(** An archive with two versions of the file d/x and, between them, a hard link d/x to a file y. *)
Definition first_x : member := mkMember $"d/x" "0" 420 600 7 [] 1000 100 false 0 2.
Definition file_y : member := mkMember $"y" "0" 420 5 8 [] 1000 100 false 0 1.
Definition link_x : member := mkMember $"d/x" "1" 420 0 8 $"y" 1000 100 false 0 0.
Definition last_x : member := mkMember $"./d//x" "0" 384 3 9 [] 1001 101 false 0 1.
Definition grown_archive : list block := [Head first_x; Other 1; Other 2; Head file_y; Other 3; Head link_x; Head last_x; Other 4; Zero; Zero].
Definition grown_members : list (nat * member * list block) :=
  [(0%nat, first_x, [Other 1; Other 2]); (3%nat, file_y, [Other 3]); (5%nat, link_x, []); (6%nat, last_x, [Other 4])].
Lemma grown_tarball : tarball grown_archive grown_members.
Proof.
  apply (tar_member first_x [] [Other 1; Other 2] [Head file_y; Other 3; Head link_x; Head last_x; Other 4; Zero; Zero] [(0%nat, file_y, [Other 3]); (2%nat, link_x, []); (3%nat, last_x, [Other 4])]); try reflexivity.
  apply (tar_member file_y [] [Other 3] [Head link_x; Head last_x; Other 4; Zero; Zero] [(0%nat, link_x, []); (1%nat, last_x, [Other 4])]); try reflexivity.
  apply (tar_member link_x [] [] [Head last_x; Other 4; Zero; Zero] [(0%nat, last_x, [Other 4])]); try reflexivity.
  apply (tar_member last_x [] [Other 4] [Zero; Zero] []); try reflexivity. apply tar_end. right. now exists [Zero].
Qed.

Example C129_case :
  tarball grown_archive grown_members /\ leaf (fun p => p) grown_members [$"d"; $"x"] /\ nothing_at (fun p => p) grown_members [$"d"; $"x.versions"] /\
  versions_at (fun p => p) grown_members [$"d"; $"x"] = [(0%nat, first_x, [Other 1; Other 2]); (5%nat, link_x, []); (6%nat, last_x, [Other 4])] /\
  regular_file first_x [Other 1; Other 2] /\ regular_file last_x [Other 4] /\ type_bits (m_type last_x) 32768.
Proof.
  split; [exact grown_tarball|]. split; [split|split; [|split; [reflexivity|split; [|split]]]].
  - intros pos m body rest I N. unfold grown_members in I.
    repeat (destruct I as [I|I]; [injection I as <- <- <-; change (location_of (fun p => p) [] first_x) with [$"d"; $"x"]; destruct rest as [|? [|]]; (congruence || discriminate)|]). destruct I.
  - intros pos m body I _. unfold grown_members in I. repeat (destruct I as [I|I]; [injection I as <- <- <-; discriminate|]). destruct I.
  - intros pos m body rest I. unfold grown_members in I. repeat (destruct I as [I|I]; [injection I as <- <- <-; discriminate|]). destruct I.
  - split; [now left|]. split; [reflexivity|]. split; [split; cbn; lia|reflexivity].
  - split; [now left|]. split; [reflexivity|]. split; [split; cbn; lia|reflexivity].
  - now left.
Qed.

(** Hard links are not followed below PATH.versions: in the archive without the last member, d/x shows the five bytes of y, but the newest of
    its versions, which should be the same, is shown as an empty file without a type. *)
Definition linked_last : list block := [Head first_x; Other 1; Other 2; Head file_y; Other 3; Head link_x; Zero; Zero].
Theorem C129_link_refuted :
  let rows := build (index_part (fun p => p) false None false linked_last 1 0 linked_last [] 0) in
  ls 0 0 0 rows 0 (fun r => r) $"/d/x.versions" = Ok [($".", None); ($"..", None); ($"1", None); ($"2", None)] /\
  (exists s, serve 0 0 0 rows [0] mounted (fun r => r, KStat $"/d/x") = (RStat s, mounted) /\ st_size s = 5 /\ st_mode s = Z.lor 420 32768) /\
  (exists s, serve 0 0 0 rows [0] mounted (fun r => r, KStat $"/d/x.versions/2") = (RStat s, mounted) /\ st_size s = 0 /\ st_mode s = 420).
Proof.
  cbv zeta. split; [reflexivity|]. split; eexists; (split; [reflexivity|split; reflexivity]).
Qed.
Print Assumptions C129_link_refuted.
