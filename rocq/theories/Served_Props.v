(** Property C127: a mounted TAR archive as the kernel sees it, from the blocks of the archive to the answers to its requests. *)
From Coq Require Import Ascii String Permutation.
From Verif Require Import PyBase PyDict PyStr Path_Model Path_Spec Path_Proofs FileInfo Union_Model Index_Model Index_Spec Index_Proofs Build_Proofs
  Version_Model MemFile_Spec Stencil_Spec Stencil_Model Stencil_Props Sparse_Model Tar_Model Tar_Spec Tar_Proofs TarRead_Model TarRead_Spec TarRead_Proofs
  Front_Spec Front_Model Served_Spec Served_Model Served_Proofs.
Local Open Scope Z_scope.

(** C127: after any history of requests, a location that shows a regular file, itself or through up to 128 hard links, can be opened, and
    whatever other requests come in between, every read with the handle gives the bytes of the file at the requested position. *)
Theorem C127_open_and_read :
  forall (A : Type) (render : block -> list A) (transform : str -> str) (strip : bool) (remount : option (str -> str)) (archive : list block) l,
  (forall b, length (render b) = 512%nat) -> tarball archive l ->
  forall now uid gid n p m body, shows transform l n (denotes (slash :: p)) m body -> (n <= 128)%nat -> denotes (slash :: p) <> [] ->
  let rows := build (index_part transform strip remount false archive 1 0 archive [] 0) in
  let serve := serve now uid gid rows (bytes_of render archive) in
  let serve_all := serve_all now uid gid rows (bytes_of render archive) in
  forall before sh, any_order sh ->
  exists fh st, serve (serve_all mounted before) (sh, KOpen (slash :: p)) = (RHandle fh, st) /\
    forall between, (forall sh', ~ In (sh', KRelease fh) between) ->
    forall sh' path size offset, 0 <= offset -> 0 <= size ->
      fst (serve (serve_all st between) (sh', KRead path size offset fh)) = RData (bytes_at (content_of render m body) offset size).
Proof.
  intros A render transform strip remount archive l Hr Ht now uid gid n p m body S Hn N rows serve serve_all before sh Hsh.
  destruct (served_shown transform strip remount archive l Ht now uid gid sh Hsh n m body p S Hn N) as (pos & I & Rf & L).
  pose proof (file_row_fields transform [] 0 0 pos m) as (F1 & F2 & F3 & F4 & F5 & F6 & F7 & F8 & F9 & F10 & F11).
  set (r := file_row transform [] 0 0 pos m) in *. destruct Rf as (Ty & Sp & Fi & M).
  assert (O : open_member (row_to_file_info r) = Some (open_plain (r_offset r) (m_size m))).
  { unfold open_member. cbn [row_to_file_info fi_userdata u_issparse u_offset fi_size]. now rewrite F11, Sp, F5. }
  assert (Hl : lies_at archive body (r_offset r)).
  { rewrite F4. apply (lies_body archive archive 0 l); [exists [], []; rewrite app_nil_r; split; reflexivity|exact Ht|exact I]. }
  destruct (lies_content render Hr archive body (r_offset r) m Hl Fi) as [Ec Hi].
  set (files := the_file (bytes_of render archive)).
  assert (Ej : joined files (open_plain (r_offset r) (m_size m)) = content_of render m body).
  { unfold joined, open_plain. cbn [map concat]. rewrite app_nil_r. exact Ec. }
  assert (Hin : Forall (inside files) (open_plain (r_offset r) (m_size m))) by (constructor; [exact Hi|constructor]).
  destruct (C01_stenciled_read_at A files _ 0 0 (fun _ => 0) Hin ltac:(lia) ltac:(lia)) as (s & _ & _ & _ & E0 & _).
  set (st0 := serve_all mounted before). set (fh := k_last st0 + 1).
  exists fh, (mkK fh (dset Z.eqb (k_open st0) fh (Some s)) (k_pos st0)). split.
  { unfold serve, Served_Model.serve. cbn [fst snd]. unfold rows. rewrite L, O, E0. reflexivity. }
  intros between Hb sh' path size offset Ho Hs.
  assert (Hf : holds_file fh s (mkK fh (dset Z.eqb (k_open st0) fh (Some s)) (k_pos st0))).
  { split; [cbn; lia|]. cbn [k_open]. rewrite (dget_dset_same Z.eqb Z.eqb_spec). exists (sf_offset s). now destruct s. }
  apply (serve_all_holds now uid gid rows (bytes_of render archive) fh s between _ ) in Hf; [|exact Hb].
  fold serve_all in Hf. set (st1 := serve_all _ between) in *. destruct Hf as [_ (o & D)].
  unfold serve, Served_Model.serve. cbn [fst snd]. rewrite D.
  destruct (C01_stenciled_read_at A files _ offset size (k_pos st1) Hin Ho ltac:(lia)) as (s' & s1 & s2 & pos' & E1 & Sk & Rd & _).
  assert (s' = s) by congruence. subst s'.
  change (sf_seek (set_offset s o) offset SEEK_SET) with (sf_seek s offset SEEK_SET). rewrite Sk. fold files. rewrite Rd. cbn [fst].
  rewrite Ej. destruct (Z.eqb_spec size (-1)); [lia|reflexivity].
Qed.
Print Assumptions C127_open_and_read.

(** The attributes of such a location are those of the member. *)
Theorem C127_stat :
  forall (A : Type) (bytes : list A) (transform : str -> str) (strip : bool) (remount : option (str -> str)) (archive : list block) l, tarball archive l ->
  forall now uid gid n p m body, shows transform l n (denotes (slash :: p)) m body -> (n <= 128)%nat -> denotes (slash :: p) <> [] ->
  let rows := build (index_part transform strip remount false archive 1 0 archive [] 0) in
  forall st sh, any_order sh ->
  exists s, serve now uid gid rows bytes st (sh, KStat (slash :: p)) = (RStat s, st) /\
    st_size s = m_size m /\ st_mode s = Z.lor (m_mode m) 32768 /\ st_uid s = m_uid m /\ st_gid s = m_gid m /\
    st_mtime s = m_mtime m * 1000000000 /\ st_nlink s = 1 /\ 512 * (st_blocks s - 1) < m_size m <= 512 * st_blocks s.
Proof.
  intros A bytes transform strip remount archive l Ht now uid gid n p m body S Hn N rows st sh Hsh.
  destruct (served_shown transform strip remount archive l Ht now uid gid sh Hsh n m body p S Hn N) as (pos & I & Rf & L).
  pose proof (file_row_fields transform [] 0 0 pos m) as (F1 & F2 & F3 & F4 & F5 & F6 & F7 & F8 & F9 & F10 & F11).
  unfold serve, rows. cbn [fst snd]. rewrite L. eexists. split; [reflexivity|].
  cbn [served_info row_to_file_info st_size st_mode st_uid st_gid st_mtime st_nlink st_blocks fi_size fi_mode fi_uid fi_gid fi_mtime].
  rewrite F5, F7, F9, F10, F6, (full_mode_file m body Rf). repeat (split; [reflexivity|]).
  unfold ceil_div. pose proof (Z.div_mod (- m_size m) 512). pose proof (Z.mod_pos_bound (- m_size m) 512). lia.
Qed.
Print Assumptions C127_stat.

(** Handles are never given out twice. *)
Theorem C127_new_handles :
  forall (A : Type) (bytes : list A) now uid gid rows before sh path fh st between sh' path' fh' st',
  let serve := serve now uid gid rows bytes in let serve_all := serve_all now uid gid rows bytes in
  serve (serve_all mounted before) (sh, KOpen path) = (RHandle fh, st) -> serve (serve_all st between) (sh', KOpen path') = (RHandle fh', st') -> fh < fh'.
Proof.
  intros A bytes now uid gid rows before sh path fh st between sh' path' fh' st' serve serve_all O1 O2.
  assert (G : forall st sh path fh st', serve st (sh, KOpen path) = (RHandle fh, st') -> fh = k_last st + 1 /\ k_last st' = fh).
  { clear. intros st sh path fh st'. unfold serve, Served_Model.serve. cbn [fst snd].
    destruct (served_lookup _ _ _ _ _ _) as [[i|? ? ?]|]; try discriminate. destruct (open_member i); try discriminate.
    destruct (sf_init l); [|discriminate]. intros [= <- <-]. split; reflexivity. }
  apply G in O1 as [_ O1]. apply G in O2 as [O2 _]. pose proof (serve_all_last now uid gid rows bytes between st). unfold serve_all in O2. lia.
Qed.
Print Assumptions C127_new_handles.

(** A handle gives no data anymore after it was released. *)
Theorem C127_released :
  forall (A : Type) (bytes : list A) now uid gid rows before sh fh st between,
  let serve := serve now uid gid rows bytes in let serve_all := serve_all now uid gid rows bytes in
  serve (serve_all mounted before) (sh, KRelease fh) = (RDone, st) ->
  forall sh' path size offset, fst (serve (serve_all st between) (sh', KRead path size offset fh)) = RErr ValueError.
Proof.
  intros A bytes now uid gid rows before sh fh st between serve serve_all R sh' path size offset.
  pose proof (serve_all_given now uid gid rows bytes before mounted mounted_given) as G. fold serve_all in G. set (st0 := serve_all mounted before) in *.
  assert (C : closed_file fh st).
  { unfold serve, Served_Model.serve in R. cbn [fst snd] in R. destruct (dget Z.eqb (k_open st0) fh) as [e|] eqn:D; [|discriminate].
    injection R as <-. split; [now apply (G fh e)|]. cbn [k_open]. apply (dget_dset_same Z.eqb Z.eqb_spec). }
  apply (serve_all_closed now uid gid rows bytes fh between) in C as [_ C]. fold serve_all in C.
  unfold serve, Served_Model.serve. cbn [fst snd]. rewrite C. reflexivity.
Qed.
Print Assumptions C127_released.

(** A handle that no [open] has given out cannot be released, and trying changes nothing. *)
Theorem C127_stale :
  forall (A : Type) (bytes : list A) now uid gid rows before fh,
  let serve := serve now uid gid rows bytes in let serve_all := serve_all now uid gid rows bytes in
  (forall h1 r h2, before = h1 ++ r :: h2 -> fst (serve (serve_all mounted h1) r) <> RHandle fh) ->
  forall sh, serve (serve_all mounted before) (sh, KRelease fh) = (RErr (OSErr 116), serve_all mounted before).
Proof.
  intros A bytes now uid gid rows before fh serve serve_all H sh.
  assert (D : dget Z.eqb (k_open (serve_all mounted before)) fh = None).
  { revert H. induction before as [|[sh' q] before IH] using rev_ind; intros H; [reflexivity|].
    assert (X : serve_all mounted (before ++ [(sh', q)]) = snd (serve (serve_all mounted before) (sh', q))).
    { unfold serve_all. rewrite serve_all_app. reflexivity. }
    rewrite X. clear X. specialize (IH (fun h1 r h2 E => H h1 r (h2 ++ [(sh', q)]) ltac:(rewrite E; now rewrite <- app_assoc))).
    specialize (H before (sh', q) [] eq_refl). set (st := serve_all mounted before) in *. unfold serve, Served_Model.serve in *. cbn [fst snd] in *.
    destruct q as [path|path|path size offset fh'|fh'].
    - destruct (served_lookup _ _ _ _ _ _); exact IH.
    - destruct (served_lookup _ _ _ _ _ _) as [[i|? ? ?]|]; try exact IH. destruct (open_member i); try exact IH.
      destruct (sf_init l); try exact IH. cbn [fst snd k_open] in *. rewrite (dget_dset_other Z.eqb Z.eqb_spec); [exact IH|]. intros E. apply H. now rewrite E.
    - destruct (dget Z.eqb (k_open st) fh') as [[s|]|] eqn:D'; cbn [snd]; try exact IH. assert (fh <> fh') by (intros ->; congruence).
      destruct (sf_seek s offset SEEK_SET) as [[?|?] s1]; cbn [snd k_open].
      + destruct (sf_read _ s1 _ size) as [[d s2] pos]. cbn [snd k_open]. now rewrite (dget_dset_other Z.eqb Z.eqb_spec).
      + now rewrite (dget_dset_other Z.eqb Z.eqb_spec).
    - destruct (dget Z.eqb (k_open st) fh') eqn:D'; cbn [snd k_open]; try exact IH. assert (fh <> fh') by (intros ->; congruence).
      now rewrite (dget_dset_other Z.eqb Z.eqb_spec). }
  unfold serve, Served_Model.serve. cbn [fst snd]. now rewrite D.
Qed.
Print Assumptions C127_stale.

(** A path with nothing at it and nothing below it in the archive does not exist, unless a component looks like a .versions folder. *)
Theorem C127_missing :
  forall (A : Type) (bytes : list A) (transform : str -> str) (strip : bool) (remount : option (str -> str)) (archive : list block) l, tarball archive l ->
  forall now uid gid loc, Forall proper_name loc -> loc <> [] -> Forall (fun n => forall stem, n <> stem ++ $".versions") loc ->
  (forall pos m body rest, In (pos, m, body) l -> location_of transform [] m <> loc ++ rest) ->
  let rows := build (index_part transform strip remount false archive 1 0 archive [] 0) in
  forall st sh, any_order sh ->
  serve now uid gid rows bytes st (sh, KStat (written loc)) = (RErr (OSErr 2), st) /\ serve now uid gid rows bytes st (sh, KOpen (written loc)) = (RErr (OSErr 2), st).
Proof.
  intros A bytes transform strip remount archive l Ht now uid gid loc P N V H rows st sh Hsh.
  assert (V' : Forall (fun n => ends_with $".versions" n = false) loc).
  { revert V. apply Forall_impl. intros n V. destruct (ends_with $".versions" n) eqn:E; [|reflexivity]. apply ends_with_spec in E as (t & E). now destruct (V t). }
  pose proof (served_missing transform strip remount archive l Ht now uid gid sh Hsh loc P N V' H) as L.
  unfold serve, rows. cbn [fst snd]. rewrite L. split; reflexivity.
Qed.
Print Assumptions C127_missing.

(** An archive with a file a/x of 600 bytes and a hard link l to it. *)
Definition linked_file : member := mkMember $"a/x" "0" 420 600 7 [] 1000 100 false 0 2.
Definition linking : member := mkMember $"./l" "1" 420 0 7 $"a/x" 1000 100 false 0 0.
Definition linked_archive : list block := [Head linked_file; Other 1; Other 2; Head linking; Zero; Zero].
Definition linked_members : list (nat * member * list block) := [(0%nat, linked_file, [Other 1; Other 2]); (3%nat, linking, [])].

Lemma linked_tarball : tarball linked_archive linked_members.
Proof.
  apply (tar_member linked_file [] [Other 1; Other 2] [Head linking; Zero; Zero] [(0%nat, linking, [])]); try reflexivity.
  apply (tar_member linking [] [] [Zero; Zero] []); try reflexivity. apply tar_end. right. now exists [Zero].
Qed.

Example C127_case :
  tarball linked_archive linked_members /\ shows (fun p => p) linked_members 1 (denotes $"/l") linked_file [Other 1; Other 2] /\
  Forall (fun n => forall stem, n <> stem ++ $".versions") [$"a"; $"y"] /\
  (forall pos m body rest, In (pos, m, body) linked_members -> location_of (fun p => p) [] m <> [$"a"; $"y"] ++ rest).
Proof.
  split; [exact linked_tarball|]. split; [|split].
  - apply (shows_link _ _ 0 (denotes $"/l") 3 linking [] linked_file [Other 1; Other 2]); try (vm_compute; congruence).
    + exists [(0%nat, linked_file, [Other 1; Other 2])], []. split; [reflexivity|]. split; [reflexivity|]. intros pos m body [].
    + intros pos m body rest [E|[E|[]]] N; injection E as <- <- <-; destruct rest as [|? [|]]; (congruence || discriminate).
    + split; [reflexivity|]. split; [reflexivity|discriminate].
    + apply (shows_file _ _ _ 0).
      * exists [], [(3%nat, linking, [])]. split; [reflexivity|]. split; [reflexivity|]. intros pos m body [E|[]]. injection E as <- <- <-. discriminate.
      * intros pos m body rest [E|[E|[]]] N; injection E as <- <- <-; destruct rest as [|? [|]]; (congruence || discriminate).
      * split; [now left|]. split; [reflexivity|]. split; [split; cbn; lia|reflexivity].
  - repeat constructor; intros stem E; apply (f_equal (@length ascii)) in E; rewrite app_length in E; cbn in E; lia.
  - intros pos m body rest [E|[E|[]]]; injection E as <- <- <-; discriminate.
Qed.

(** With a transformation of the names, hard links lead nowhere, because their targets are not transformed: here, all names are put into
    the folder n, and the hard link /n/l to the file, now at /n/a/x, looks like an empty file. *)
Theorem C127_transform_refuted :
  let rows := build (index_part (fun p => $"/n" ++ p) false None false linked_archive 1 0 linked_archive [] 0) in
  tarball linked_archive linked_members /\
  (exists s, serve 0 0 0 rows [0] mounted (fun r => r, KStat $"/n/a/x") = (RStat s, mounted) /\ st_size s = 600) /\
  (exists s, serve 0 0 0 rows [0] mounted (fun r => r, KStat $"/n/l") = (RStat s, mounted) /\ st_size s = 0).
Proof.
  cbv zeta. split; [exact linked_tarball|]. split; eexists; (split; [reflexivity|reflexivity]).
Qed.
Print Assumptions C127_transform_refuted.
