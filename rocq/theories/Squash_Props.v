(** Properties C76 and C77: files of a SquashFS image are read like in-memory files, and the tree of the image is what is mounted. *)
From Coq Require Import Ascii String Permutation.
From Verif Require Import PyBase PyDict PyStr Path_Model Path_Spec Path_Proofs FileInfo Index_Model Index_Spec Tar_Model MemFile_Spec Squash_Model Squash_Spec Squash_Proofs.
Local Open Scope Z_scope.

(** C76: over any history of reads and seeks relative to the start or the end, the file object gives the bytes that an in-memory file with
    the content gives, and never raises.  Positions are reported up to the end of the file only.  Missing: seeks relative to the current
    position and tell, see below. *)
Theorem C76_reads_content_partial :
  forall (A : Type) (zero : A) (file : squash_file A) block_size content calls, 0 < block_size -> stores zero file block_size content ->
  Forall (fun c => match c with CSeek _ FromCurrent | CTell => False | _ => True end) calls -> no_negative_seek content 0 calls ->
  sq_session zero file block_size calls = map (clip (Z.of_nat (length content))) (mem_run content 0 calls).
Proof.
  intros A zero file bs content calls BS ST F N. destruct (open_at zero file bs content BS ST) as (st & E & W & _). unfold sq_session. rewrite E.
  now apply (run_spec zero file bs content BS ST).
Qed.
Print Assumptions C76_reads_content_partial.

(** The whole behaviour, for every history of calls: the position that tell reports and that SEEK_CUR starts from lags behind. *)
Theorem C76_all_calls :
  forall (A : Type) (zero : A) (file : squash_file A) block_size content calls, 0 < block_size -> stores zero file block_size content ->
  sq_session zero file block_size calls = lagging_run content 0 0 calls.
Proof.
  intros A zero file bs content calls BS ST. destruct (open_at zero file bs content BS ST) as (st & E & W & Of). unfold sq_session. rewrite E.
  revert Of W. generalize 0 at 2 4. generalize 0. clear E. revert st. induction calls as [|c cs IH]; intros st r p Of W; [reflexivity|].
  assert (LC := len_nonneg content). destruct c as [o w|k|]; cbn [sq_run lagging_run].
  - assert (Q : sq_seek zero file bs st o (whence_of w) = sq_seek zero file bs st (target content r o w) 0).
    { unfold sq_seek. assert (S : sq_size file = len content) by apply ST. rewrite S. destruct w; cbn [whence_of target Z.eqb Pos.eqb];
        [reflexivity|now rewrite Of, (Z.add_comm o)|now rewrite (Z.add_comm o)]. }
    rewrite Q. destruct (Z.ltb_spec (target content r o w) 0) as [L|L].
    + unfold sq_seek. cbn [Z.eqb]. destruct W as (_ & B & _). set (t := target content r o w) in *.
      destruct (Z.ltb_spec t (s_block st * bs)); [|nia]. cbn [orb]. unfold refill. destruct (Z.ltb_spec (t / bs) 0) as [|N]; [reflexivity|].
      exfalso. pose proof (Z.div_lt_upper_bound t bs 0 BS ltac:(lia)). lia.
    + destruct (sq_seek_spec zero file bs content BS ST st p (target content r o w) 0 W) as (st' & E & W' & O'); [lia|exact L|].
      rewrite E. cbn [Z.eqb] in *. f_equal. apply IH; assumption.
  - destruct (sq_read_spec zero file bs content BS ST st p k W) as (st' & E & W' & O'). rewrite E. cbn [mem_call].
    apply (f_equal (cons _)). apply IH; [congruence|exact W'].
  - unfold sq_tell. rewrite Of. f_equal. now apply IH.
Qed.
Print Assumptions C76_all_calls.
Example C76_all_calls_case :
  lagging_run [1; 2; 3; 4; 5] 0 0 [CRead 2; CTell; CSeek 1 FromCurrent; CRead 2; CSeek 1 FromCurrent; CRead 1; CSeek (-6) FromEnd]
  = [AnsData [1; 2]; AnsPos 0; AnsPos 1; AnsData [2; 3]; AnsPos 2; AnsData [3]; AnsRejected].
Proof. reflexivity. Qed.

(** What is missing is false: reads do not move the position that tell reports, nor the one that SEEK_CUR starts from. *)
Theorem C76_tell_after_read_refuted :
  forall (A : Type) (zero : A) (file : squash_file A) block_size content n, 0 < block_size -> stores zero file block_size content ->
  let d := bytes_at content 0 n in 0 <= n ->
  sq_session zero file block_size [CRead n; CTell; CSeek 0 FromCurrent; CRead n] = [AnsData d; AnsPos 0; AnsPos 0; AnsData d].
Proof.
  intros A zero file bs content n BS ST d Hn. destruct (open_at zero file bs content BS ST) as (st & E & W & Of). unfold sq_session. rewrite E. cbn [sq_run].
  destruct (sq_read_spec zero file bs content BS ST st 0 n W) as (st1 & E1 & W1 & O1). rewrite E1.
  assert (D : wanted content 0 n = d) by (unfold wanted; destruct (Z.ltb_spec n 0); [lia|reflexivity]). rewrite D in *.
  unfold sq_tell. rewrite O1, Of. change (whence_of FromCurrent) with 1.
  assert (Q : sq_seek zero file bs st1 0 1 = sq_seek zero file bs st1 0 0) by (unfold sq_seek; cbn [Z.eqb Pos.eqb]; now rewrite O1, Of). rewrite Q.
  destruct (sq_seek_spec zero file bs content BS ST st1 _ 0 0 W1) as (st2 & E2 & W2 & _); [lia|cbn; lia|]. rewrite E2.
  cbn [Z.eqb] in *. destruct (sq_read_spec zero file bs content BS ST st2 0 n W2) as (st3 & E3 & _). rewrite E3, D.
  pose proof (len_nonneg content). now rewrite Z.min_l by lia.
Qed.
Print Assumptions C76_tell_after_read_refuted.

(** A negative target is not a position: it raises. *)
Theorem C76_negative_seek_raises :
  forall (A : Type) (zero : A) (file : squash_file A) block_size content o, 0 < block_size -> stores zero file block_size content ->
  o < 0 -> sq_session zero file block_size [CSeek o FromStart] = [AnsRejected].
Proof.
  intros A zero file bs content o BS ST Ho. destruct (open_at zero file bs content BS ST) as (st & E & W & _). unfold sq_session. rewrite E. cbn [sq_run].
  unfold sq_seek. change (whence_of FromStart) with 0. cbn [Z.eqb]. destruct W as (_ & B & _).
  destruct (Z.ltb_spec o (s_block st * bs)); [|nia]. cbn [orb]. unfold refill. destruct (Z.ltb_spec (o / bs) 0) as [|L]; [reflexivity|].
  exfalso. pose proof (Z.div_lt_upper_bound o bs 0 BS ltac:(lia)). lia.
Qed.
Print Assumptions C76_negative_seek_raises.

(** Ten bytes in blocks of four: the second block is left out, the rest is a fragment. *)
Example C76_example :
  let file := mkSF 10 [Some [1; 2; 3; 4]; None] (Some [5; 6]) in
  let content := [1; 2; 3; 4; 0; 0; 0; 0; 5; 6] in
  let calls := [CRead 3; CSeek (-4) FromEnd; CRead 3; CRead (-1); CRead 5; CSeek 20 FromStart; CRead 1; CSeek 2 FromStart; CRead (-1)] in
  stores 0 file 4 content /\ no_negative_seek content 0 calls /\
  sq_session 0 file 4 calls = [AnsData [1; 2; 3]; AnsPos 6; AnsData [0; 0; 5]; AnsData [6]; AnsData []; AnsPos 10; AnsData []; AnsPos 2; AnsData [3; 4; 0; 0; 0; 0; 5; 6]].
Proof.
  split; [|split; [cbn; repeat split; lia|reflexivity]]. split; [reflexivity|]. split; [|cbn; split; [reflexivity|lia]].
  intros [|[|[|i]]] b H; cbn in H; try discriminate; injection H as <-; [reflexivity|]. cbn. repeat constructor.
Qed.

Lemma mode_value i : 0 <= si_mode i -> plain_mode i ->
  Z.lor (si_mode i) (match si_kind i with SqSymlink => S_IFLNK | SqDirectory => S_IFDIR | _ => S_IFREG end) = type_of i * 4096 + si_mode i mod 4096.
Proof.
  intros M (K & T). pose proof (Z.mod_pos_bound (si_mode i) 4096 eq_refl) as B. pose proof (Z.div_mod (si_mode i) 4096 ltac:(lia)) as E.
  assert (Eq : (match si_kind i with SqSymlink => S_IFLNK | SqDirectory => S_IFDIR | _ => S_IFREG end) = type_of i * 4096) by (unfold type_of; now destruct (si_kind i)).
  rewrite Eq. set (p := si_mode i mod 4096) in *.
  assert (L : forall t, 0 <= t -> t * 4096 + p = Z.lor p (t * 4096)).
  { intros t Ht. rewrite Z.add_comm. assert (Z0 : Z.land p (t * 4096) = 0).
    { change 4096 with (2 ^ 12). rewrite <- Z.shiftl_mul_pow2 by lia. apply Z.bits_inj'. intros k Hk. rewrite Z.land_spec, Z.bits_0, Z.shiftl_spec by lia.
      destruct (Z.lt_ge_cases k 12); [rewrite (Z.testbit_neg_r t) by lia; apply andb_false_r|].
      rewrite <- (Z.mod_small p (2 ^ 12)) by (change (2 ^ 12) with 4096; lia). rewrite Z.mod_pow2_bits_high by lia. reflexivity. }
    rewrite Z.add_nocarry_lxor by exact Z0. apply Z.lxor_lor. exact Z0. }
  assert (Ht : 0 <= type_of i) by (unfold type_of; destruct (si_kind i); lia).
  destruct T as [T|T]; rewrite T in E.
  - rewrite E. rewrite (L (type_of i) Ht). f_equal.
  - replace (si_mode i) with (Z.lor p (type_of i * 4096)) by (rewrite <- L by exact Ht; lia).
    rewrite <- Z.lor_assoc, Z.lor_diag. symmetry. now apply L.
Qed.
Lemma dir_mode i : 0 <= si_mode i -> plain_mode i -> is_dir_mode (Z.lor (si_mode i) S_IFDIR) = true \/ si_kind i <> SqDirectory.
Proof.
  intros M P. destruct (si_kind i) eqn:K; [left|right; discriminate..]. pose proof (mode_value i M P) as V. rewrite K in V. rewrite V. unfold type_of. rewrite K.
  pose proof (Z.mod_pos_bound (si_mode i) 4096 eq_refl) as B. unfold is_dir_mode. apply Z.eqb_eq.
  change (4 * 4096) with 16384. replace (16384 + si_mode i mod 4096) with (Z.lor 16384 (si_mode i mod 4096)).
  - rewrite Z.land_lor_distr_l. assert (Z0 : Z.land (si_mode i mod 4096) S_IFMT = 0); [|rewrite Z0; reflexivity].
    change S_IFMT with (15 * 4096). change 4096 with (2 ^ 12). rewrite <- Z.shiftl_mul_pow2 by lia. apply Z.bits_inj'. intros k Hk. rewrite Z.land_spec, Z.bits_0, Z.shiftl_spec by lia.
    destruct (Z.lt_ge_cases k 12); [rewrite (Z.testbit_neg_r 15) by lia; apply andb_false_r|]. rewrite Z.mod_pow2_bits_high by lia. reflexivity.
  - symmetry. rewrite Z.add_nocarry_lxor, Z.lxor_lor; try reflexivity;
    change 16384 with (4 * 4096); change 4096 with (2 ^ 12); rewrite <- Z.shiftl_mul_pow2 by lia; apply Z.bits_inj'; intros k Hk; rewrite Z.land_spec, Z.bits_0, Z.shiftl_spec by lia;
    (destruct (Z.lt_ge_cases k 12); [rewrite (Z.testbit_neg_r 4) by lia; reflexivity|rewrite Z.mod_pow2_bits_high by lia; apply andb_false_r]).
Qed.

(** C77: every image is indexed.  Where the image has a file, a folder or a symbolic link, it is found with its attributes, and opening it
    reads its inode, also if several names refer to that inode.  Where the image has nothing, nothing is found. *)
Theorem C77_lookup_and_open :
  forall root, image root -> exists index, squash_index (fun p => p) root = Ok index /\
  forall now uid gid sh, any_order sh ->
  (forall loc i, loc <> [] -> node_at root loc i -> 0 <= si_mode i -> plain_mode i ->
     exists f, lookup now uid gid sh index (written loc) 0 = Some f /\
       (forall (I : Type) (read_inode : Z -> Z -> I), squash_open read_inode f = Ok (read_inode (si_start i) (si_offset i))) /\
       fi_mode f = type_of i * 4096 + si_mode i mod 4096 /\ fi_mtime f = si_time i /\
       fi_uid f = 0 /\ fi_gid f = 0 /\ (si_kind i <> SqSymlink -> fi_linkname f = []) /\ (si_kind i <> SqRegular -> fi_size f = 0) /\
       (si_kind i = SqRegular -> fi_size f = si_size i) /\ (si_kind i = SqSymlink -> fi_linkname f = si_target i)) /\
  (forall loc, Forall proper_name loc -> loc <> [] -> (forall i, ~ node_at root loc i) -> lookup now uid gid sh index (written loc) 0 = None).
Proof.
  intros root Im. destruct (squash_indexes root Im) as (index & E). exists index. split; [exact E|]. intros now uid gid sh O. split.
  - intros loc i NE H M P. rewrite (squash_lookup root Im now uid gid sh O loc i index E NE H (dir_mode i M P)). eexists. split; [reflexivity|].
    destruct (squash_row_fields (listed_as i, (loc, i))) as (F1 & F2 & F3 & F4 & F5 & F6 & F7). cbn [fst snd] in *.
    set (r := squash_row (fun p => p) (listed_as i, (loc, i))) in *. cbn [row_to_file_info fi_size fi_mtime fi_linkname fi_mode].
    cbn [row_to_file_info fi_uid fi_gid].
    assert (Ow : r_uid r = 0 /\ r_gid r = 0) by (unfold r, squash_row; now destruct (split_last _)). destruct Ow as (Ou & Og).
    split; [|split; [rewrite F7; now apply mode_value|split; [exact F4|split; [exact Ou|split; [exact Og|split; [|split; [|split; intros K; rewrite K in *; assumption]]]]]]].
    2: { intros K. rewrite F6. destruct (si_kind i); congruence. }
    2: { intros K. rewrite F5. destruct (si_kind i); congruence. }
    intros I read_inode. unfold squash_open. cbn [row_to_file_info fi_userdata u_offsetheader]. rewrite F3. unfold listed_as.
    destruct (node_range loc root Im i H) as (R1 & R2). destruct (join_split _ _ R1 R2) as (_ & ->). reflexivity.
  - intros loc Pl NE H. now apply (squash_absent root Im now uid gid sh O loc index E).
Qed.
Print Assumptions C77_lookup_and_open.

(** A folder lists exactly its entries. *)
Theorem C77_list :
  forall root, image root -> (forall loc i, node_at root loc i -> 0 <= si_mode i /\ plain_mode i) -> exists index, squash_index (fun p => p) root = Ok index /\
  forall sh, any_order sh -> forall loc n, Forall proper_name loc -> proper_name n ->
  (exists d, index_list sh index (written loc) = Some d /\ In n (map fst d)) <-> exists i, node_at root (loc ++ [n]) i.
Proof.
  intros root Im Pm. destruct (squash_indexes root Im) as (index & E). exists index. split; [exact E|]. intros sh O loc n Pl Pn.
  assert (NE : loc ++ [n] <> []) by (destruct loc; discriminate).
  assert (PP : Forall proper_name (loc ++ [n])) by (apply Forall_app; split; [exact Pl|now constructor]).
  pose proof (squash_list root 0 0 0 sh O loc n sh index E O Pl Pn) as L. split.
  - intros (d & Ed & I). rewrite Ed in L. destruct (dget str_eqb d n) as [x|] eqn:G; [|apply (dget_None str_eqb str_eqb_spec) in G; contradiction].
    destruct (iterate_spec root [] Im) as (l & El & Sl). cbn [app] in Sl.
    destruct (existsb (fun e => if list_eq_dec (list_eq_dec ascii_dec) (fst (snd e)) (loc ++ [n]) then true else false) l) eqn:X.
    + apply existsb_exists in X as ((o & p & i) & I' & X). cbn [fst snd] in X. destruct (list_eq_dec _ p (loc ++ [n])) as [->|]; [|discriminate].
      apply Sl in I' as (? & <- & H & _). now exists i.
    + exfalso. rewrite (squash_absent root Im 0 0 0 sh O (loc ++ [n]) index E PP NE) in L; [discriminate|]. intros i H.
      assert (X' : existsb (fun e => if list_eq_dec (list_eq_dec ascii_dec) (fst (snd e)) (loc ++ [n]) then true else false) l = true); [|congruence].
      apply existsb_exists. exists (listed_as i, (loc ++ [n], i)). split; [apply Sl; now exists (loc ++ [n])|]. cbn [fst snd]. now destruct (list_eq_dec _ (loc ++ [n]) (loc ++ [n])).
  - intros (i & H). destruct (Pm _ _ H) as (M & P). rewrite (squash_lookup root Im 0 0 0 sh O (loc ++ [n]) i index E NE H (dir_mode i M P)) in L.
    destruct (index_list sh index (written loc)) as [d|]; [|discriminate]. exists d. split; [reflexivity|].
    destruct (in_dec (list_eq_dec ascii_dec) n (map fst d)) as [|N]; [assumption|]. exfalso. apply (dget_None str_eqb str_eqb_spec) in N. congruence.
Qed.
Print Assumptions C77_list.

(** If the stored mode of a character device has its type bits, it is shown as a symbolic link without a target. *)
Theorem C77_character_device_refuted :
  forall root index loc i now uid gid sh, image root -> squash_index (fun p => p) root = Ok index -> any_order sh -> loc <> [] -> node_at root loc i ->
  si_kind i = SqOther -> 0 <= si_mode i -> si_mode i / 4096 = 2 ->
  exists f, lookup now uid gid sh index (written loc) 0 = Some f /\ fi_mode f = 10 * 4096 + si_mode i mod 4096 /\ fi_linkname f = [].
Proof.
  intros root index loc i now uid gid sh Im E O NE H K M T.
  rewrite (squash_lookup root Im now uid gid sh O loc i index E NE H ltac:(right; congruence)). eexists. split; [reflexivity|].
  destruct (squash_row_fields (listed_as i, (loc, i))) as (F1 & F2 & F3 & F4 & F5 & F6 & F7). cbn [fst snd] in *. rewrite K in *.
  cbn [row_to_file_info fi_linkname fi_mode]. rewrite F7. split; [|exact F6].
  pose proof (mode_value (mkSI 0 0 SqSymlink (10 * 4096 + si_mode i mod 4096) 0 0 [])) as V. cbn [si_mode si_kind] in V. unfold type_of, plain_mode in V. cbn [si_kind si_mode] in V.
  pose proof (Z.mod_pos_bound (si_mode i) 4096 eq_refl) as B. pose proof (Z.div_mod (si_mode i) 4096 ltac:(lia)) as Em. rewrite T in Em.
  assert (Ld : forall a p, 0 <= a -> 0 <= p < 4096 -> a * 4096 + p = Z.lor (a * 4096) p).
  { intros a p Ha Hp. assert (Z0 : Z.land (a * 4096) p = 0).
    { change 4096 with (2 ^ 12). rewrite <- Z.shiftl_mul_pow2 by lia. apply Z.bits_inj'. intros k Hk. rewrite Z.land_spec, Z.bits_0, Z.shiftl_spec by lia.
      destruct (Z.lt_ge_cases k 12); [rewrite (Z.testbit_neg_r a) by lia; reflexivity|].
      rewrite <- (Z.mod_small p (2 ^ 12)) by (change (2 ^ 12) with 4096; lia). rewrite Z.mod_pow2_bits_high by lia. apply andb_false_r. }
    rewrite Z.add_nocarry_lxor by exact Z0. apply Z.lxor_lor. exact Z0. }
  rewrite Em at 1. replace (4096 * 2) with (2 * 4096) by lia. rewrite (Ld 2), (Ld 10) by lia. rewrite <- Z.lor_assoc, (Z.lor_comm _ S_IFREG), Z.lor_assoc. reflexivity.
Qed.
Print Assumptions C77_character_device_refuted.

(** A root with a file that has two names, one of them in a folder, and a link. *)
Definition c77_root : sq_tree :=
  let file := SqTree (mkSI 3 32 SqRegular 420 7 11 []) [] in
  SqTree (mkSI 5 0 SqDirectory 493 0 1 [])
    [($"a", file); ($"d", SqTree (mkSI 4 64 SqDirectory 16877 0 2 []) [($"b", file)]); ($"l", SqTree (mkSI 6 96 SqSymlink 511 0 3 $"d/b") [])].
Example C77_example :
  image c77_root /\ (exists i, node_at c77_root [$"d"; $"b"] i /\ 0 <= si_mode i /\ plain_mode i) /\
  match squash_index (fun p => p) c77_root with
  | Ok index =>
      option_map (fun f => (fi_size f, fi_mode f, squash_open pair f)) (lookup 0 0 0 (fun l => l) index $"/d/b" 0) = Some (7, 33188, Ok (3, 32)) /\
      option_map (fun f => squash_open pair f) (lookup 0 0 0 (fun l => l) index $"/a" 0) = Some (Ok (3, 32)) /\
      option_map fi_linkname (lookup 0 0 0 (fun l => l) index $"/l" 0) = Some $"d/b" /\
      option_map (map fst) (index_list (fun l => l) index $"/") = Some [$"a"; $"d"; $"l"]
  | Err _ => False
  end.
Proof.
  split; [|split].
  - assert (F : image (SqTree (mkSI 3 32 SqRegular 420 7 11 []) [])) by (constructor; [cbn; lia|cbn; lia|constructor|intros ? ? []]).
    assert (PN : forall c, c <> "."%char -> c <> slash -> proper_name [c]) by (intros c H1 H2; repeat split; [discriminate|intros H; injection H as ->; congruence|discriminate|intros [H|[]]; congruence]).
    constructor; [cbn; lia|cbn; lia|repeat constructor; cbn; intuition discriminate|].
    intros name c [E|[E|[E|[]]]]; injection E as <- <-; (split; [apply PN; discriminate|]); [exact F| |].
    + constructor; [cbn; lia|cbn; lia|repeat constructor; cbn; intuition discriminate|]. intros name c [E|[]]. injection E as <- <-. split; [apply PN; discriminate|exact F].
    + constructor; [cbn; lia|cbn; lia|constructor|intros ? ? []].
  - exists (mkSI 3 32 SqRegular 420 7 11 []). split; [|split; [cbn; lia|split; [discriminate|left; reflexivity]]].
    econstructor; [reflexivity|right; left; reflexivity|]. econstructor; [reflexivity|left; reflexivity|constructor].
  - repeat split.
Qed.
