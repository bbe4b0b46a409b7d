(** Property C130: a TAR archive with TAR archives in it, mounted recursively, as the kernel sees it. *)
From Coq Require Import Ascii String Permutation.
From Verif Require Import PyBase PyDict PyStr Path_Model Path_Spec Path_Proofs FileInfo Union_Model Index_Model Index_Spec Index_Proofs Build_Proofs
  Version_Model MemFile_Spec Stencil_Spec Stencil_Model Stencil_Props Sparse_Model Tar_Model Tar_Spec Tar_Proofs TarMark_Proofs Tar_Props TarMark_Props TarRead_Model TarRead_Spec TarRead_Proofs
  Strip_Model Front_Spec Front_Model Served_Spec Served_Model Served_Proofs Ls_Model DeepLs_Proofs Deep_Spec Deep_Proofs.
Local Open Scope Z_scope.

(** C130: a regular file in an archive inside an archive, to any depth of nesting up to the limit, can be opened at its place in the
    mounted tree after any history of requests, and whatever other requests come in between, every read with the handle gives its bytes. *)
Theorem C130_open_and_read :
  forall (A : Type) (render : block -> list A) (transform : str -> str) (strip : bool) (remount : option (str -> str)) (archive : list block) levels,
  (forall b, length (render b) = 512%nat) -> sound levels archive -> clean_mounts transform strip remount levels archive ->
  forall now uid gid p prefix header m body, denotes (slash :: p) <> [] ->
  member_of transform strip remount levels archive prefix header m body -> location_of transform prefix m = denotes (slash :: p) ->
  last_there transform strip remount levels archive (denotes (slash :: p)) header -> regular_file m body ->
  let rows := build (index_part transform strip remount false archive levels 0 archive [] 0) in
  let serve := serve now uid gid rows (bytes_of render archive) in
  let serve_all := serve_all now uid gid rows (bytes_of render archive) in
  forall before sh, any_order sh ->
  exists fh st, serve (serve_all mounted before) (sh, KOpen (slash :: p)) = (RHandle fh, st) /\
    forall between, (forall sh', ~ In (sh', KRelease fh) between) ->
    forall sh' path size offset, 0 <= offset -> 0 <= size ->
      fst (serve (serve_all st between) (sh', KRead path size offset fh)) = RData (bytes_at (content_of render m body) offset size).
Proof.
  intros A render transform strip remount archive levels Hr Hs Hc now uid gid p prefix header m body N Hm Hloc Hl Rf rows serve serve_all before sh Hsh.
  destruct (deep_served transform strip remount archive levels Hs Hc now uid gid sh p prefix header m body Hsh N Hm Hloc Hl Rf)
    as (r & L & R1 & R2 & R3 & R4 & R5 & R6 & R7).
  pose proof (held_lies _ _ _ archive _ _ _ _ _ _ _ _ Hm (lies_self archive)) as Li. rewrite <- R1 in Li.
  destruct Rf as (_ & Sp & Fi & _).
  exact (row_reads render archive rows now uid gid sh r m body (slash :: p) Hr Li Fi R2 (eq_trans R7 Sp) L (serve_all mounted before)).
Qed.
Print Assumptions C130_open_and_read.

(** Its attributes are those of its header in the nested archive. *)
Theorem C130_stat :
  forall (A : Type) (bytes : list A) (transform : str -> str) (strip : bool) (remount : option (str -> str)) (archive : list block) levels,
  sound levels archive -> clean_mounts transform strip remount levels archive ->
  forall now uid gid p prefix header m body, denotes (slash :: p) <> [] ->
  member_of transform strip remount levels archive prefix header m body -> location_of transform prefix m = denotes (slash :: p) ->
  last_there transform strip remount levels archive (denotes (slash :: p)) header -> regular_file m body ->
  let rows := build (index_part transform strip remount false archive levels 0 archive [] 0) in
  forall st sh, any_order sh ->
  exists s, serve now uid gid rows bytes st (sh, KStat (slash :: p)) = (RStat s, st) /\
    st_size s = m_size m /\ st_mode s = Z.lor (m_mode m) 32768 /\ st_uid s = m_uid m /\ st_gid s = m_gid m /\
    st_mtime s = m_mtime m * 1000000000 /\ st_nlink s = 1 /\ 512 * (st_blocks s - 1) < m_size m <= 512 * st_blocks s.
Proof.
  intros A bytes transform strip remount archive levels Hs Hc now uid gid p prefix header m body N Hm Hloc Hl Rf rows st sh Hsh.
  destruct (deep_served transform strip remount archive levels Hs Hc now uid gid sh p prefix header m body Hsh N Hm Hloc Hl Rf)
    as (r & L & R1 & R2 & R3 & R4 & R5 & R6 & R7).
  unfold serve, rows. cbn [fst snd]. rewrite L. eexists. split; [reflexivity|].
  cbn [served_info row_to_file_info st_size st_mode st_uid st_gid st_mtime st_nlink st_blocks fi_size fi_mode fi_uid fi_gid fi_mtime].
  rewrite R2, R3, R4, R5, R6. repeat (split; [reflexivity|]).
  unfold ceil_div. pose proof (Z.div_mod (- m_size m) 512). pose proof (Z.mod_pos_bound (- m_size m) 512). lia.
Qed.
Print Assumptions C130_stat.

(** The place where a nested archive is mounted shows a folder that everyone who may read the archive may enter, unless something behind the
    archive took the place. *)
Lemma archive_mode m : named_tar m -> full_mode m = Z.lor (m_mode m) 32768.
Proof. intros [T _]. unfold full_mode, isdir, isfile, issym, ischr, isfifo. destruct T as [<- |[<- |[<- |[<- |[]]]]]; cbn; now rewrite !Z.lor_0_r. Qed.

Theorem C130_mount_point :
  forall (A : Type) (bytes : list A) (transform : str -> str) (strip : bool) (remount : option (str -> str)) (archive : list block) levels,
  sound levels archive -> clean_mounts transform strip remount levels archive ->
  forall now uid gid p prefix header m body at_, denotes (slash :: p) <> [] -> denotes (slash :: p) = denotes at_ ->
  holds (mounted_at transform strip remount) (Nat.pred levels) [] 0 archive prefix header m body -> named_tar m ->
  mounted_at transform strip remount prefix m at_ -> m_link m = [] -> last_mount transform strip remount levels archive at_ prefix header ->
  let rows := build (index_part transform strip remount false archive levels 0 archive [] 0) in
  forall st sh, any_order sh ->
  exists s, serve now uid gid rows bytes st (sh, KStat (slash :: p)) = (RStat s, st) /\
    enterable (m_mode m) (st_mode s) /\ st_uid s = m_uid m /\ st_gid s = m_gid m /\ st_mtime s = m_mtime m * 1000000000.
Proof.
  intros A bytes transform strip remount archive levels Hs Hc now uid gid p prefix header m body at_ N Ep Hm Hn Ha Hk Hl rows st sh Hsh.
  pose proof (folder_enterable (full_mode m)) as He.
  destruct (deep_mount_served transform strip remount archive levels Hs Hc now uid gid sh p prefix header m body at_ Hsh N Ep Hm Hn Ha Hk) as (r & L & R1 & R2 & R3 & R4 & R5).
  { destruct He as [He _]. unfold is_dir_mode. change S_IFMT with 61440. rewrite He. reflexivity. }
  { exact Hl. }
  unfold serve, rows. cbn [fst snd]. rewrite L. eexists. split; [reflexivity|].
  cbn [served_info row_to_file_info st_size st_mode st_uid st_gid st_mtime st_nlink st_blocks fi_size fi_mode fi_uid fi_gid fi_mtime].
  rewrite R2, R3, R4, R5. split; [|auto]. destruct He as [He1 He2]. split; [exact He1|]. intros who W. specialize (He2 who W).
  rewrite (archive_mode m Hn) in He2 |- *. rewrite !Z.lor_spec in He2.
  assert (Z.testbit 32768 who = false /\ Z.testbit 32768 (who + 1) = false /\ Z.testbit 32768 (who + 2) = false) as (T1 & T2 & T3)
    by (destruct W as [<- |[<- |[<- |[]]]]; repeat split; reflexivity).
  rewrite T1, T2, T3, !orb_false_r in He2. exact He2.
Qed.
Print Assumptions C130_mount_point.

(** Listing the root, or a location with something below it, gives ".", ".." and the name of everything that is in it or below it in any of the
    archives, each once. *)
Theorem C130_list :
  forall (transform : str -> str) (strip : bool) (remount : option (str -> str)) (archive : list block) levels,
  sound levels archive -> clean_mounts transform strip remount levels archive ->
  let present := present transform strip remount levels archive in
  forall now uid gid mode sh loc, any_order sh -> Forall proper_name loc -> (loc = [] \/ exists n rest, present (loc ++ n :: rest)) ->
  let rows := build (index_part transform strip remount false archive levels 0 archive [] 0) in
  exists a b entries, ls now uid gid rows mode sh (written loc) = Ok (($".", a) :: ($"..", b) :: entries) /\ NoDup (map fst entries) /\
    forall n, In n (map fst entries) <-> exists rest, present (loc ++ n :: rest).
Proof.
  intros transform strip remount archive levels Hs Hc present now uid gid mode sh loc Hsh P Hb rows.
  apply (ls_there _ (deep_backend transform strip remount archive levels Hs Hc) present); auto.
  - now apply inserted_present.
  - now apply present_inserted.
  - intros x. apply present_proper.
Qed.
Print Assumptions C130_list.

(** The archive of Tar_Props with b.TAR that holds y: /b/y. *)
Lemma app_inj_len {X} (a b c d : list X) : a ++ b = c ++ d -> length a = length c -> a = c /\ b = d.
Proof.
  revert c. induction a as [|x a IH]; intros [|y c] E L; try discriminate; [auto|]. cbn [app length] in E, L. injection E as -> E.
  destruct (IH c E ltac:(lia)) as [-> ->]. auto.
Qed.
Lemma tarball_fun bs l : tarball bs l -> forall l', tarball bs l' -> l = l'.
Proof.
  induction 1 as [bs E|m ext body rest l Ee Eb Ht IH]; intros l' H'.
  - inversion H' as [|m ext body rest l2 Ee Eb Ht]; subst; [reflexivity|]. exfalso. destruct E as [E|[r E]]; discriminate.
  - remember (Head m :: ext ++ body ++ rest) as bs eqn:E0. destruct H' as [bs E|m' ext' body' rest' l2 Ee' Eb' Ht'];
      [exfalso; destruct E as [E|[r E]]; subst; discriminate|].
    injection E0 as -> E2. apply app_inj_len in E2 as [-> E2]; [|congruence]. apply app_inj_len in E2 as [-> ->]; [|congruence]. now rewrite (IH _ Ht').
Qed.

Lemma tar_ends m : named_tar m -> option_map lower (hd_error (rev (m_name m))) = Some "r"%char.
Proof.
  intros (_ & stem & ext & -> & X). rewrite rev_app_distr. apply (f_equal (@rev _)) in X. rewrite <- map_rev in X.
  destruct (rev ext) as [|c l]; [discriminate X|]. cbn in X |- *. injection X as X _. now rewrite X.
Qed.

Definition at_b : str := $"/b".
Lemma sample_mount at_ : mounted_at (fun p => p) true None [] (plain $"b.TAR" "0" 2048 0 4) at_ -> at_ = at_b.
Proof. intros H. apply (mount_point_spec (fun p => p) true None [] 0 0 0) in H; [|reflexivity]. rewrite <- H. vm_compute. reflexivity. Qed.

Lemma sample_members prefix header m body : member_of (fun p => p) true None 2 sample_tar prefix header m body ->
  prefix = [] /\ In (header, m) [(0, plain $"a/x" "0" 600 1 2); (2048, plain $"b.TAR" "0" 2048 0 4); (4608, plain $"./c" "5" 0 0 0)] \/
  prefix = at_b /\ header = 2560 /\ m = plain $"y" "0" 5 0 1.
Proof.
  intros H. inversion H as [levels p s bs l pos m' b Ht I|levels p s bs l pos m' b at_ p' h m2 b2 Ht I Hn Hsz Hm Hh]; subst;
    rewrite <- (tarball_fun _ _ sample_layout _ Ht) in I.
  - left. split; [reflexivity|]. destruct I as [E|[E|[E|[]]]]; injection E as <- <- <-; cbn [In]; auto.
  - right. apply tar_ends in Hn. destruct I as [E|[E|[E|[]]]]; injection E as <- <- <-; [discriminate Hn| |discriminate Hn].
    apply sample_mount in Hm. subst at_. inversion Hh as [levels2 p2 s2 bs2 l2 pos2 m3 b3 Ht2 I2|]; subst.
    rewrite <- (tarball_fun _ _ inner_layout _ Ht2) in I2. destruct I2 as [E|[]]. injection E as <- <- <-. auto.
Qed.

Lemma sample_mounts at_ : mount_at (fun p => p) true None 2 sample_tar at_ -> at_ = at_b.
Proof.
  intros (p & h & m & b & H & Hn & Hm). apply tar_ends in Hn. inversion H as [levels p' s bs l pos m' b' Ht I|]; subst.
  rewrite <- (tarball_fun _ _ sample_layout _ Ht) in I.
  destruct I as [I|[I|[I|[]]]]; injection I as <- <- <-; [discriminate Hn|now apply sample_mount in Hm|discriminate Hn].
Qed.

Example C130_case :
  let y := plain $"y" "0" 5 0 1 in
  sound 2 sample_tar /\ clean_mounts (fun p => p) true None 2 sample_tar /\ denotes $"/b/y" = [$"b"; $"y"] /\
  member_of (fun p => p) true None 2 sample_tar at_b 2560 y [Other 3] /\ location_of (fun p => p) at_b y = denotes $"/b/y" /\
  last_there (fun p => p) true None 2 sample_tar (denotes $"/b/y") 2560 /\ regular_file y [Other 3].
Proof.
  cbv zeta. split; [|split; [|split; [|split; [|split; [|split]]]]].
  - apply (sound_tar 1 sample_tar _ sample_layout). intros pos m body I T _. destruct I as [E|[E|[E|[]]]]; injection E as <- <- <-.
    + right. split; [split; cbn; lia|]. right. now exists 1%nat, [Other 2].
    + left. split; [reflexivity|]. apply (sound_tar 0 inner_tar _ inner_layout). intros. congruence.
    + right. split; [split; cbn; lia|now left].
  - intros at_ H. apply sample_mounts in H. subst. reflexivity.
  - reflexivity.
  - apply (holds_nested _ 0 [] 0 sample_tar _ 4 (plain $"b.TAR" "0" 2048 0 4) inner_tar at_b _ _ _ _ sample_layout).
    + right. now left.
    + split; [now left|]. exists $"b", $".TAR". split; reflexivity.
    + reflexivity.
    + exists $"/b". split; [|reflexivity]. right. split; [reflexivity|]. exists $".TAR". split; reflexivity.
    + exact (holds_here _ 0 at_b 2560 inner_tar _ 0 _ _ inner_layout (or_introl eq_refl)).
  - reflexivity.
  - split; [|split].
    + intros p h m b H E. apply sample_members in H as [[-> I]|(-> & -> & ->)]; [|lia]. destruct I as [I|[I|[I|[]]]]; injection I as <- <-; discriminate E.
    + intros p h m b rest H N. apply sample_members in H as [[-> I]|(-> & -> & ->)].
      * destruct I as [I|[I|[I|[]]]]; injection I as <- <-; destruct rest; (congruence || discriminate).
      * destruct rest; [congruence|]. discriminate.
    + intros at_ rest H. apply sample_mounts in H. subst. discriminate.
  - split; [now left|]. split; [reflexivity|]. split; [split; cbn; lia|reflexivity].
Qed.

Example C130_list_case : present (fun p => p) true None 2 sample_tar ([$"b"] ++ $"y" :: []).
Proof. left. exists at_b, 2560, (plain $"y" "0" 5 0 1), [Other 3]. split; [apply C130_case|reflexivity]. Qed.

Example C130_mount_case :
  let b := plain $"b.TAR" "0" 2048 0 4 in
  holds (mounted_at (fun p => p) true None) 1 [] 0 sample_tar [] 2048 b inner_tar /\ named_tar b /\ mounted_at (fun p => p) true None [] b at_b /\
  last_mount (fun p => p) true None 2 sample_tar at_b [] 2048.
Proof.
  cbv zeta. destruct C60_marked_example as (H1 & H2 & H3). split; [exact H1|]. split; [exact H2|]. split; [exact H3|]. split.
  - intros p h m b H E. apply sample_members in H as [[-> I]|(-> & -> & ->)]; [|discriminate E].
    destruct I as [I|[I|[I|[]]]]; injection I as <- <-; try discriminate E; auto.
  - intros p h m b H T _. apply tar_ends in T. inversion H as [levels p' s bs l pos m' b' Ht I|]; subst.
    rewrite <- (tarball_fun _ _ sample_layout _ Ht) in I. destruct I as [I|[I|[I|[]]]]; injection I as <- <- <-; try discriminate T. right. split; reflexivity.
Qed.

(** Hard links in nested archives are looked up in the outermost archive: in an archive with a file y of 9 bytes and an archive b.tar, in which
    l is a hard link to another file y of 5 bytes, b/l shows the 9 bytes of the outer file. *)
Definition link_to_y : member := mkMember $"l" "1" 420 0 7 $"y" 1000 100 false 0 0.
Definition inner_linked : list block := [Head (plain $"y" "0" 5 0 1); Other 3; Head link_to_y; Zero].
Definition outer_linked : list block := [Head (plain $"y" "0" 9 0 1); Other 4; Head (plain $"b.tar" "0" 2048 0 4)] ++ inner_linked ++ [Zero].
Lemma inner_linked_layout : tarball inner_linked [(0%nat, plain $"y" "0" 5 0 1, [Other 3]); (2%nat, link_to_y, [])].
Proof.
  apply (tar_member (plain $"y" "0" 5 0 1) [] [Other 3] [Head link_to_y; Zero] [(0%nat, link_to_y, [])]); try reflexivity.
  apply (tar_member link_to_y [] [] [Zero] []); try reflexivity. apply tar_end. right. now exists [].
Qed.
Lemma outer_linked_layout : tarball outer_linked [(0%nat, plain $"y" "0" 9 0 1, [Other 4]); (2%nat, plain $"b.tar" "0" 2048 0 4, inner_linked)].
Proof.
  apply (tar_member (plain $"y" "0" 9 0 1) [] [Other 4] ([Head (plain $"b.tar" "0" 2048 0 4)] ++ inner_linked ++ [Zero])
           [(0%nat, plain $"b.tar" "0" 2048 0 4, inner_linked)]); try reflexivity.
  apply (tar_member (plain $"b.tar" "0" 2048 0 4) [] inner_linked [Zero] []); try reflexivity. apply tar_end. right. now exists [].
Qed.

Theorem C130_hard_link_refuted :
  let rows := build (index_part (fun p => p) true None false outer_linked 2 0 outer_linked [] 0) in
  sound 2 outer_linked /\
  tarball inner_linked [(0%nat, plain $"y" "0" 5 0 1, [Other 3]); (2%nat, link_to_y, [])] /\ hard_link_member link_to_y /\ m_link link_to_y = $"y" /\
  (exists s, serve 0 0 0 rows [0] mounted (fun r => r, KStat $"/b/y") = (RStat s, mounted) /\ st_size s = 5) /\
  (exists s, serve 0 0 0 rows [0] mounted (fun r => r, KStat $"/b/l") = (RStat s, mounted) /\ st_size s = 9).
Proof.
  cbv zeta. split; [|split; [exact inner_linked_layout|split; [|split; [reflexivity|split]]]].
  - apply (sound_tar 1 outer_linked _ outer_linked_layout). intros pos m body I T _. destruct I as [E|[E|[]]]; injection E as <- <- <-.
    + right. split; [split; cbn; lia|]. right. now exists 4%nat, [].
    + left. split; [reflexivity|]. apply (sound_tar 0 inner_linked _ inner_linked_layout). intros. congruence.
  - split; [reflexivity|]. split; [reflexivity|discriminate].
  - eexists. split; reflexivity.
  - eexists. split; reflexivity.
Qed.
Print Assumptions C130_hard_link_refuted.
