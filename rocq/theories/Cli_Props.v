(** Theorems about the command line (C96 to C100). *)
From Coq Require Import Ascii String Sorting.Permutation.
From Verif Require Import PyBase PyDict PyStr PyInt Factory_Model Factory_Spec Factory_Proofs Factory_Props Strip_Model Strip_Props Offsets_Model Offsets_Spec
  Offsets_Proofs Offsets_Props Cli_Model Cli_Spec Cli_Proofs.
Local Open Scope Z_scope.

(** ** C96: numbers of threads *)
(** A well-formed text is accepted, and each decoder asks for exactly the number that the text requests for it: the number for the
    first of its names that is given, the last one if it is given several times, else the default, and all cores for 0. *)
Theorem C96_threads cores text items : thread_text text items ->
  exists d, parse_parallelization cores text = Ok d /\
    forall names n, ~ In [] names -> requested cores items (names ++ [[]]) n -> get_first d (names ++ [[]]) = n.
Proof.
  intros H. destruct (parse_spec cores text items H) as (d & E & G). exists d. split; [exact E|]. exact (requested_get cores items d G).
Qed.
Print Assumptions C96_threads.

(** Nothing else is accepted. *)
Theorem C96_accepts cores text : (exists d, parse_parallelization cores text = Ok d) <-> accepted text.
Proof. exact (parse_accepts cores text). Qed.
Print Assumptions C96_accepts.

Lemma number_of s : s <> [] -> forallb (fun c => (48 <=? nat_of_ascii c)%nat && (nat_of_ascii c <? 48 + 10)%nat) s = true -> number_text s (number 10 s).
Proof. intros H1 H2. split; [exact H1|]. now apply (numeral_of 10); [lia|]. Qed.
(** The default of the option, with another item. *)
Definition ex_threads : str := $":1,rapidgzip-bzip2:0,xz:12,xz:3".
Definition ex_items : list (str * Z) := [([], 1); ($"rapidgzip-bzip2", 0); ($"xz", 12); ($"xz", 3)].
Lemma ex_thread_text : thread_text ex_threads ex_items.
Proof.
  apply (tt_items [$":1"; $"rapidgzip-bzip2:0"; $"xz:12"; $"xz:3"] ex_items); [discriminate|].
  assert (I : forall b d, d <> [] -> forallb (fun c => (48 <=? nat_of_ascii c)%nat && (nat_of_ascii c <? 48 + 10)%nat) d = true ->
    ~ In ","%char b -> ~ In ":"%char b -> item_text (b ++ $":" ++ d) (b, number 10 d)).
  { intros b d H1 H2 H3 H4. exists d. split; [now apply number_of|]. cbn [fst]. auto. }
  constructor; [apply (I [] $"1")|constructor; [apply (I $"rapidgzip-bzip2" $"0")|constructor; [apply (I $"xz" $"12")|constructor; [apply (I $"xz" $"3")|constructor]]]];
    try reflexivity; try discriminate; cbn; intuition discriminate.
Qed.
Example C96_example : thread_text ex_threads ex_items /\
  requested 8 ex_items [$"rapidgzip-gzip"; $"rapidgzip"; []] 1 /\ requested 8 ex_items [$"rapidgzip-bzip2"; []] 8 /\ requested 8 ex_items [$"xz"; []] 3 /\
  ~ accepted $"4,xz:1".
Proof.
  split; [exact ex_thread_text|]. split; [|split; [|split]].
  - apply rq_next; [cbn; intuition discriminate|]. apply rq_next; [cbn; intuition discriminate|].
    apply (rq_here 8 ex_items [] [] 1 [] [($"rapidgzip-bzip2", 0); ($"xz", 12); ($"xz", 3)]); [reflexivity|cbn; intuition discriminate].
  - apply (rq_here 8 ex_items $"rapidgzip-bzip2" [[]] 0 [([], 1)] [($"xz", 12); ($"xz", 3)]); [reflexivity|cbn; intuition discriminate].
  - apply (rq_here 8 ex_items $"xz" [[]] 3 [([], 1); ($"rapidgzip-bzip2", 0); ($"xz", 12)] []); [reflexivity|intros []].
  - intros H. apply (C96_accepts 8) in H as (d & H). discriminate.
Qed.

(** ** C97: the decoder of a compressed file *)
Section Decoder.
  Variable GZIP BZIP2 XZ : Z.
  Variable compressions : list (str * compression_backend).
  Variable loaded : list str.
  Variable linux : bool.
  Hypothesis Hnames : NoDup (map fst compressions).
  Hypothesis Hids : GZIP <> BZIP2 /\ GZIP <> XZ /\ BZIP2 <> XZ.
  (** The rows of COMPRESSION_BACKENDS for gzip and bzip2 *)
  Definition undone_by (name module : str) (id : Z) : Prop :=
    exists b, In (name, b) compressions /\ In id (c_formats b) /\ c_modules b = [module] /\ c_delegated b = $"tarfile".
  Hypothesis Hgzip : undone_by $"rapidgzip" $"rapidgzip" GZIP.
  Hypothesis Hindexed : undone_by $"indexed_gzip" $"indexed_gzip" GZIP.
  Hypothesis Hbzip2 : undone_by $"rapidgzip-bzip2" $"rapidgzip" BZIP2.

  Lemma enabled_NoDup : NoDup (map fst (enabled compressions)).
  Proof.
    unfold enabled. clear - Hnames. induction compressions as [|[n b] l IH]; [constructor|]. cbn [map fst] in Hnames. apply NoDup_cons_iff in Hnames as [N1 N2].
    cbn [filter]. destruct (str_eqb _ _); [|now apply IH]. cbn [map fst]. constructor; [|now apply IH].
    intros I. apply N1. apply in_map_iff in I as (x & <- & I). apply filter_In in I as [I _]. now apply in_map.
  Qed.
  Lemma find_exists id name module prioritized : undone_by name module id -> In module loaded ->
    existsb (fun b => existsb (Z.eqb id) (c_formats (snd b))) (enabled compressions) = true /\
    exists n b, find_available_backend (enabled compressions) loaded id prioritized = Some (n, b).
  Proof.
    intros (b & I & F & M & D) L.
    assert (E : In (name, b) (enabled compressions)) by (apply filter_In; split; [exact I|cbn [snd]; rewrite D; reflexivity]).
    split; [apply existsb_exists; exists (name, b); split; [exact E|]; apply existsb_exists; exists id; split; [exact F|apply Z.eqb_refl]|].
    assert (C : can_undo (enabled compressions) loaded id (name, b)).
    { split; [exact E|]. split; [exact F|]. cbn [snd]. rewrite M. intros m [<-|[]]. exact L. }
    pose proof (C70_decompressor (enabled compressions) loaded id prioritized enabled_NoDup) as (H1 & H2). cbv zeta in H1, H2.
    destruct (dec_first _ (can_dec (enabled compressions) loaded id) prioritized) as [(n & Fn)|Fn].
    - destruct Fn as (b0 & a0 & Ep & (b' & C') & Nf). exists n, b'. apply H1; [exists b0, a0; eauto|exact C'].
    - destruct H2 as (H2 & _); [eapply Forall_impl; [|exact Fn]; cbn; eauto|].
      destruct (dec_first _ (can_dec (enabled compressions) loaded id) (map fst (enabled compressions))) as [(n & F')|F'].
      + destruct F' as (b0 & a0 & Ep & (b' & C') & Nf). exists n, b'. apply H2; [exists b0, a0; eauto|exact C'].
      + exfalso. rewrite Forall_forall in F'. apply (F' name); [apply (in_map fst) in E; exact E|eauto].
  Qed.
  Lemma with_loaded module d : In module loaded -> with_module loaded module d = Ok d.
  Proof.
    intros I. unfold with_module. assert (E : existsb (str_eqb module) loaded = true) by (apply existsb_exists; exists module; split; [exact I|apply str_eqb_refl]).
    now rewrite E.
  Qed.

  (** A file that rapidgzip is meant for: on disk and not small *)
  Definition large_file (spacing : Z) (f : fileobj) : Prop :=
    (exists name, f_name f = Some name /\ name <> []) /\ f_isfile f = true /\ 4 * spacing <= f_size f.
  Lemma large_iff spacing f : large_file spacing f <-> real_file f = true /\ 4 * spacing <= f_size f.
  Proof.
    unfold large_file, real_file. split.
    - intros ((name & -> & N) & -> & S). destruct name; [congruence|]. auto.
    - destruct (f_name f) as [[|c name]|]; intros [E S]; try discriminate. split; [|auto]. exists (c :: name). split; [reflexivity|discriminate].
  Qed.

  (** With both gzip modules: large files on disk are decoded by rapidgzip with the requested threads, one on slow drives, unless
      of the two indexed_gzip is named last with --use-backend; all others are decoded by indexed_gzip. *)
  Theorem C97_gzip cores text items d texts names spacing f :
    In $"rapidgzip" loaded -> In $"indexed_gzip" loaded ->
    thread_text text items -> parse_parallelization cores text = Ok d -> names_in texts names ->
    let prefers := exists before after, names = before ++ $"indexed_gzip" :: after /\ ~ In $"rapidgzip" after in
    let r := open_compressed_file GZIP BZIP2 XZ compressions loaded linux spacing d (prioritized_backends (Some texts)) f (Some GZIP) in
    (large_file spacing f -> ~ prefers -> forall n, requested cores items [$"rapidgzip-gzip"; $"rapidgzip"; []] n ->
       r = Ok (Some (Rapidgzip (if f_slow f then 1 else n)))) /\
    (~ large_file spacing f \/ prefers -> r = Ok (Some IndexedGzip)).
  Proof.
    intros Lr Li Ht Hd Hn prefers r. destruct (C96_threads cores text items Ht) as (d' & E & G). rewrite E in Hd. injection Hd as ->.
    destruct (find_exists GZIP _ _ (prioritized_backends (Some texts)) Hgzip Lr) as (X & n0 & b0 & Fd).
    assert (P : prefers <-> exists before after, prioritized_backends (Some texts) = before ++ $"indexed_gzip" :: after /\ ~ In $"rapidgzip" before).
    { rewrite (names_rev texts names Hn). unfold prefers. split.
      - intros (b & a & -> & N). exists (rev a), (rev b). rewrite rev_app_distr. cbn [rev]. rewrite <- app_assoc. split; [reflexivity|]. now rewrite <- in_rev.
      - intros (b & a & Er & N). exists (rev a), (rev b). rewrite <- (rev_involutive names), Er, rev_app_distr. cbn [rev]. rewrite <- app_assoc.
        split; [reflexivity|]. now rewrite <- in_rev. }
    unfold r, open_compressed_file. rewrite X. cbn [negb]. rewrite Fd, Z.eqb_refl. pose proof (use_rapidgzip_iff loaded spacing (prioritized_backends (Some texts)) f) as U.
    rewrite <- P in U. split.
    - intros L N n Q. apply large_iff in L as [L1 L2].
      assert (T : use_rapidgzip loaded spacing (prioritized_backends (Some texts)) f = true) by (apply U; auto).
      rewrite T, with_loaded by exact Lr. rewrite L1. cbn [andb].
      assert (Gn : get_first d [$"rapidgzip-gzip"; $"rapidgzip"; []] = n) by (apply (G [$"rapidgzip-gzip"; $"rapidgzip"] n); [cbn; intuition discriminate|exact Q]).
      now rewrite Gn.
    - intros H. assert (T : use_rapidgzip loaded spacing (prioritized_backends (Some texts)) f = false).
      { destruct (use_rapidgzip _ _ _ _); [|reflexivity]. destruct (proj1 U eq_refl) as (_ & A & B & C). exfalso. destruct H as [H|H]; [|tauto]. apply H. apply large_iff. auto. }
      rewrite T, with_loaded by exact Li. reflexivity.
  Qed.

  (** bzip2 files are decoded with the requested threads. *)
  Theorem C97_bzip2 cores text items d texts spacing f n :
    In $"rapidgzip" loaded -> thread_text text items -> parse_parallelization cores text = Ok d ->
    requested cores items [$"rapidgzip-bzip2"; []] n ->
    open_compressed_file GZIP BZIP2 XZ compressions loaded linux spacing d (prioritized_backends texts) f (Some BZIP2) = Ok (Some (IndexedBzip2 n)).
  Proof.
    intros Lr Ht Hd Q. destruct (C96_threads cores text items Ht) as (d' & E & G). rewrite E in Hd. injection Hd as ->.
    destruct (find_exists BZIP2 _ _ (prioritized_backends texts) Hbzip2 Lr) as (X & n0 & b0 & Fd).
    unfold open_compressed_file. rewrite X. cbn [negb]. rewrite Fd. assert (N : (BZIP2 =? GZIP) = false) by (apply Z.eqb_neq; intuition congruence).
    rewrite N, Z.eqb_refl, with_loaded by exact Lr.
    assert (Gn : get_first d [$"rapidgzip-bzip2"; []] = n) by (apply (G [$"rapidgzip-bzip2"] n); [cbn; intuition discriminate|exact Q]). now rewrite Gn.
  Qed.

  (** The full statement includes the following two cases; both are false.  Only rapidgzip installed: a small gzip file is
      recognised but cannot be opened. *)
  Theorem C97_rapidgzip_only_refuted spacing d prioritized f :
    In $"rapidgzip" loaded -> ~ In $"indexed_gzip" loaded -> ~ large_file spacing f ->
    open_compressed_file GZIP BZIP2 XZ compressions loaded linux spacing d prioritized f (Some GZIP) = Err AttributeError.
  Proof.
    intros Lr Li N. destruct (find_exists GZIP _ _ prioritized Hgzip Lr) as (X & n0 & b0 & Fd).
    unfold open_compressed_file. rewrite X. cbn [negb]. rewrite Fd, Z.eqb_refl.
    assert (T : use_rapidgzip loaded spacing prioritized f = false).
    { destruct (use_rapidgzip _ _ _ _) eqn:E; [|reflexivity]. apply use_rapidgzip_iff in E as (_ & A & B & _). exfalso. apply N. apply large_iff. auto. }
    rewrite T. unfold with_module. destruct (existsb (str_eqb $"indexed_gzip") loaded) eqn:E; [|reflexivity].
    apply existsb_exists in E as (y & I & E). apply str_eqb_eq in E. subst. contradiction.
  Qed.

  (** An xz file object on disk that knows the boundaries of its several blocks is decoded with the requested threads. *)
  Theorem C97_xz cores text items d texts spacing f n : undone_by $"xz" $"xz" XZ ->
    In $"xz" loaded -> thread_text text items -> parse_parallelization cores text = Ok d ->
    requested cores items [$"xz"; []] n -> n <> 1 -> linux = true -> f_name f <> None -> f_isfile f = true -> 1 < f_boundaries f ->
    open_compressed_file GZIP BZIP2 XZ compressions loaded linux spacing d (prioritized_backends texts) f (Some XZ) = Ok (Some (ParallelXz n)).
  Proof.
    intros Hxz Lx Ht Hd Q N1 Lin Nm Fi B. destruct (C96_threads cores text items Ht) as (d' & E & G). rewrite E in Hd. injection Hd as ->.
    destruct (find_exists XZ _ _ (prioritized_backends texts) Hxz Lx) as (X & n0 & b0 & Fd).
    unfold open_compressed_file. rewrite X. cbn [negb]. rewrite Fd.
    assert (M1 : (XZ =? GZIP) = false) by (apply Z.eqb_neq; intuition congruence). assert (M2 : (XZ =? BZIP2) = false) by (apply Z.eqb_neq; intuition congruence).
    rewrite M1, M2, Z.eqb_refl. assert (Gn : get_first d [$"xz"; []] = n) by (apply (G [$"xz"] n); [cbn; intuition discriminate|exact Q]). rewrite Gn.
    assert (L : existsb (str_eqb $"xz") loaded = true) by (apply existsb_exists; exists $"xz"; split; [exact Lx|apply str_eqb_refl]). rewrite L.
    apply Z.eqb_neq in N1. rewrite N1, Lin, Fi. destruct (f_name f); [|congruence]. cbn [negb andb]. apply Z.ltb_lt in B. now rewrite B.
  Qed.

  (** xz: the parallel decoder is only considered if the compressed file object itself has an attribute block_boundaries.  Files
      opened from a path have none, so any number of threads is ignored. *)
  Theorem C97_xz_refuted spacing d prioritized f r n : f_boundaries f = 0 ->
    open_compressed_file GZIP BZIP2 XZ compressions loaded linux spacing d prioritized f (Some XZ) = Ok (Some r) -> r <> ParallelXz n.
  Proof.
    intros B. unfold open_compressed_file. rewrite B. change (1 <? 0) with false.
    assert (N1 : (XZ =? GZIP) = false) by (apply Z.eqb_neq; intuition congruence). assert (N2 : (XZ =? BZIP2) = false) by (apply Z.eqb_neq; intuition congruence).
    rewrite N1, N2. destruct (negb _); [discriminate|]. destruct (find_available_backend _ _ _ _) as [[name b]|]; [|discriminate].
    destruct (_ && _ && _ && _ && _); intros [= <-]; discriminate.
  Qed.
End Decoder.
Print Assumptions C97_gzip.
Print Assumptions C97_bzip2.
Print Assumptions C97_rapidgzip_only_refuted.
Print Assumptions C97_xz.
Print Assumptions C97_xz_refuted.

(** The table of the program, with GZIP = 1, BZIP2 = 2, XZ = 3 and ZSTANDARD = 4. *)
Definition ex_table : list (str * compression_backend) :=
  [($"rapidgzip-bzip2", mkCompression [2] [$"rapidgzip"] $"tarfile"); ($"rapidgzip", mkCompression [1] [$"rapidgzip"] $"tarfile");
   ($"indexed_gzip", mkCompression [1] [$"indexed_gzip"] $"tarfile"); ($"xz", mkCompression [3] [$"xz"] $"tarfile");
   ($"lzmaffi", mkCompression [3] [$"lzmaffi"] $"tarfile"); ($"indexed_zstd", mkCompression [4] [$"indexed_zstd"] $"tarfile");
   ($"libarchive", mkCompression [1; 2; 3; 4] [$"libarchive"] $"libarchive")].
Lemma names_of lists : forallb (fun l => match l with [] => false | _ => forallb (fun name => negb (existsb (char_eqb ",") name)) l end) lists = true ->
  names_in (map (join $",") lists) (concat lists).
Proof.
  intros H. exists lists. split; [|reflexivity]. induction lists as [|l lists IH]; cbn [map forallb] in *; [constructor|].
  apply andb_true_iff in H as [H1 H2]. constructor; [|now apply IH]. destruct l as [|x l]; [discriminate|]. split; [discriminate|]. split; [|reflexivity].
  rewrite forallb_forall in H1. apply Forall_forall. intros name I. apply H1, negb_true_iff in I. intros J.
  assert (T : existsb (char_eqb ",") name = true) by (apply existsb_exists; exists ","%char; split; [exact J|reflexivity]). congruence.
Qed.
Definition ex_file : fileobj := mkFileobj (Some $"a.tar.gz") true 5000 false 0.
Example C97_example :
  NoDup (map fst ex_table) /\ undone_by ex_table $"rapidgzip" $"rapidgzip" 1 /\ undone_by ex_table $"indexed_gzip" $"indexed_gzip" 1 /\
  undone_by ex_table $"rapidgzip-bzip2" $"rapidgzip" 2 /\ large_file 1000 ex_file /\ ~ large_file 2000 ex_file /\
  names_in [$"rapidgzip,zipfile"; $"indexed_gzip"] [$"rapidgzip"; $"zipfile"; $"indexed_gzip"] /\
  (let go texts loaded file id := open_compressed_file 1 2 3 ex_table loaded true 1000 [([], 7); ($"rapidgzip", 5)] (prioritized_backends texts) file (Some id) in
   go None [$"rapidgzip"; $"indexed_gzip"] ex_file 1 = Ok (Some (Rapidgzip 5)) /\
   go (Some [$"rapidgzip,zipfile"; $"indexed_gzip"]) [$"rapidgzip"; $"indexed_gzip"] ex_file 1 = Ok (Some IndexedGzip) /\
   go None [$"rapidgzip"] ex_file 2 = Ok (Some (IndexedBzip2 7)) /\ go None [$"xz"] ex_file 3 = Ok (Some (Other $"xz"))).
Proof.
  repeat match goal with |- _ /\ _ => split end; try reflexivity.
  - repeat constructor; cbn; intuition discriminate.
  - eexists. split; [right; now left|]. repeat split. now left.
  - eexists. split; [do 2 right; now left|]. repeat split. now left.
  - eexists. split; [now left|]. repeat split. now left.
  - split; [exists $"a.tar.gz"; split; [reflexivity|discriminate]|]. split; [reflexivity|cbn; lia].
  - intros (_ & _ & L). cbn in L. lia.
  - now apply (names_of [[$"rapidgzip"; $"zipfile"]; [$"indexed_gzip"]]).
  - cbv zeta. repeat split.
Qed.

Definition ex_xz : fileobj := mkFileobj (Some $"a.tar.xz") true 5000 false 4.
Example C97_xz_example : undone_by ex_table $"xz" $"xz" 3 /\ 1 < f_boundaries ex_xz /\
  open_compressed_file 1 2 3 ex_table [$"xz"] true 1000 [([], 7); ($"xz", 5)] (prioritized_backends None) ex_xz (Some 3) = Ok (Some (ParallelXz 5)).
Proof. split; [eexists; split; [do 3 right; now left|repeat split; now left]|]. split; reflexivity. Qed.

(** ** C98: the order of backends *)
(** Of the backends named with --use-backend that can open the file, the one named last opens it. *)
Theorem C98_archive :
  forall (Src : Type) (archives : list (str * archive_backend Src)) compressions extensions might_be,
  proper_tables archives compressions -> proper_backends archives might_be ->
  forall force texts names path x n s, names_in texts names ->
  let usable := usable Src archives might_be in
  last_in (fun x => exists n s, stands_for compressions x n /\ usable n s) names x -> stands_for compressions x n -> usable n s ->
  fst (open_mount_source Src archives compressions extensions might_be force (prioritized_backends (Some texts)) (RegularFile path)) = Ok (Opened Src n s).
Proof.
  intros Src archives compressions extensions might_be HT HB force texts names path x n s Hn usable L S U.
  destruct (C69_choice Src archives compressions extensions might_be HT HB force (prioritized_backends (Some texts)) path _ eq_refl) as (C & _).
  apply (C x n s); [|exact S|exact U]. rewrite (names_rev texts names Hn). now apply last_first.
Qed.
Print Assumptions C98_archive.

(** The same for the modules that undo compressions. *)
Theorem C98_decompressor :
  forall compressions loaded compression texts names n b, NoDup (map fst compressions) -> names_in texts names ->
  last_in (fun n => exists b, can_undo compressions loaded compression (n, b)) names n -> can_undo compressions loaded compression (n, b) ->
  find_available_backend compressions loaded compression (prioritized_backends (Some texts)) = Some (n, b).
Proof.
  intros compressions loaded compression texts names n b N Hn L C.
  destruct (C70_decompressor compressions loaded compression (prioritized_backends (Some texts)) N) as (H & _). apply H; [|exact C].
  rewrite (names_rev texts names Hn). now apply last_first.
Qed.
Print Assumptions C98_decompressor.

Example C98_example :
  names_in [$"xz,lzmaffi"; $"zipfile"] [$"xz"; $"lzmaffi"; $"zipfile"] /\
  last_in (fun n => exists b, can_undo ex_table [$"xz"; $"lzmaffi"] 3 (n, b)) [$"xz"; $"lzmaffi"; $"zipfile"] $"lzmaffi" /\
  find_available_backend ex_table [$"xz"; $"lzmaffi"] 3 (prioritized_backends (Some [$"xz,lzmaffi"; $"zipfile"])) =
    Some ($"lzmaffi", mkCompression [3] [$"lzmaffi"] $"tarfile").
Proof.
  split; [|split; [|reflexivity]].
  - now apply (names_of [[$"xz"; $"lzmaffi"]; [$"zipfile"]]).
  - exists [$"xz"], [$"zipfile"]. split; [reflexivity|]. split.
    + exists (mkCompression [3] [$"lzmaffi"] $"tarfile"). split; [do 4 right; now left|]. split; [now left|]. intros m [<-|[]]. right. now left.
    + repeat constructor. intros (b & I & _). cbn in I. repeat (destruct I as [I|I]; [discriminate|]). destruct I.
Qed.

(** ** C99: paths *)
Section PathArguments.
  Variable isdir exists_ : str -> bool.
  Variable check : str -> res str.
  Variable infer : str -> str.
  (** The last argument is the mount point: no URL, and a folder or nothing that exists. *)
  Definition is_mount_point (p : str) : Prop := (forall a b, p <> a ++ $"://" ++ b) /\ (isdir p = true \/ exists_ p = false).
  (** [paths]: the arguments without the mount point. *)
  Definition arguments (args paths : list str) (mount_point : option str) : Prop :=
    (exists p, args = paths ++ [p] /\ is_mount_point p /\ mount_point = Some p) \/
    (args = paths /\ mount_point = None /\ forall before p, args = before ++ [p] -> ~ is_mount_point p).

  Lemma contains_iff needle s : contains needle s = true <-> exists a b, s = a ++ needle ++ b.
  Proof.
    unfold contains. rewrite existsb_exists. split.
    - intros (i & _ & E). apply starts_with_spec in E as (t & E). exists (firstn i s), t. now rewrite <- E, firstn_skipn.
    - intros (a & b & ->). exists (length a). split; [apply in_seq; rewrite app_length; lia|]. rewrite skipn_app, Nat.sub_diag, skipn_all. cbn.
      apply starts_with_app.
  Qed.
  Lemma mount_point_iff p : negb (contains $"://" p) && (isdir p || negb (exists_ p)) = true <-> is_mount_point p.
  Proof.
    unfold is_mount_point. rewrite andb_true_iff, negb_true_iff, orb_true_iff, negb_true_iff. split.
    - intros [C D]. split; [|exact D]. intros a b ->. assert (T : contains $"://" (a ++ $"://" ++ b) = true) by (apply contains_iff; eauto). congruence.
    - intros [C D]. split; [|exact D]. destruct (contains $"://" p) eqn:E; [|reflexivity]. apply contains_iff in E as (a & b & E). exfalso. now apply (C a b).
  Qed.
  Lemma separate_iff args paths mp : separate isdir exists_ args = (paths, mp) <-> arguments args paths mp.
  Proof.
    unfold separate, arguments. destruct (rev args) as [|p before] eqn:R.
    - assert (args = []) as -> by (rewrite <- (rev_involutive args), R; reflexivity). split.
      + intros [= <- <-]. right. split; [reflexivity|]. split; [reflexivity|]. intros b p E. destruct b; discriminate.
      + intros [(p & E & _)|(-> & -> & _)]; [destruct paths; discriminate|reflexivity].
    - assert (A : args = rev before ++ [p]) by (rewrite <- (rev_involutive args), R; reflexivity). clear R.
      destruct (negb (contains $"://" p) && (isdir p || negb (exists_ p))) eqn:E.
      + apply mount_point_iff in E. split.
        * intros [= <- <-]. left. exists p. auto.
        * intros [(q & E' & M & ->)|(_ & _ & N)]; [|exfalso; now apply (N (rev before) p)]. rewrite A in E'. apply app_inj_tail in E' as [-> ->]. reflexivity.
      + assert (NM : ~ is_mount_point p) by (intros M; apply mount_point_iff in M; congruence). split.
        * intros [= <- <-]. right. split; [reflexivity|]. split; [reflexivity|]. intros b q E'. rewrite A in E'. apply app_inj_tail in E' as [_ <-]. exact NM.
        * intros [(q & E' & M & ->)|(-> & -> & _)]; [|reflexivity]. rewrite A in E'. apply app_inj_tail in E' as [_ <-]. contradiction.
  Qed.

  (** Success: every path given is mounted, once and in the order given; the last argument is the mount point if it can be one,
      and otherwise it is inferred from the first source and is no existing file. *)
  Theorem C99_arguments extra args sources m : args <> [] ->
    mount_arguments isdir exists_ check infer extra args = Ok (sources, m) <->
    exists paths mount_point fixed, arguments args paths mount_point /\ (paths <> [] \/ extra = true) /\
      Forall2 (fun p x => check p = Ok x) paths fixed /\ squeezed fixed sources /\ NoDup sources /\
      match mount_point with
      | Some (c :: p) => m = c :: p
      | _ => match sources with
             | first :: _ => m = infer first /\ (exists_ m = true -> isdir m = true)
             | [] => m = $"mounted"
             end
      end.
  Proof.
    intros Hne. unfold mount_arguments. destruct args as [|a0 args0] eqn:A0; [congruence|]. rewrite <- A0 in *. clear A0 a0 args0.
    destruct (separate isdir exists_ args) as [paths mp] eqn:S. apply separate_iff in S.
    assert (U : forall paths' mp', arguments args paths' mp' -> paths' = paths /\ mp' = mp).
    { intros paths' mp' H. apply separate_iff in S, H. rewrite S in H. now injection H as -> ->. }
    assert (F : forall o : res (list str * str), (paths <> [] \/ extra = true) ->
      match paths, extra with [], false => Err RatarmountError | _, _ => o end = o).
    { intros o [H|H]; [destruct paths; [congruence|reflexivity]|rewrite H; now destruct paths]. }
    split.
    - intros H. assert (Hx : paths <> [] \/ extra = true).
      { destruct paths; [|left; discriminate]. destruct extra; [now right|discriminate]. }
      rewrite F in H by exact Hx. destruct (checked check paths []) as [l|] eqn:C; [|discriminate].
      destruct (any_twice l) eqn:T; [discriminate|]. destruct (checked_Ok check paths [] l C) as (fixed & F2). destruct (squeezed_exists fixed) as (r & Sq).
      rewrite (checked_nil check paths fixed r F2 Sq) in C. injection C as ->. exists paths, mp, fixed. split; [exact S|]. split; [exact Hx|]. split; [exact F2|].
      assert (Hs : l = sources /\ match mp with Some (c :: p) => m = c :: p | _ => match l with first :: _ => m = infer first /\ (exists_ m = true -> isdir m = true) | [] => m = $"mounted" end end).
      { destruct mp as [[|c p]|]; [destruct l as [|first l]|injection H as <- <-; auto|destruct l as [|first l]].
        - injection H as <- <-. auto.
        - destruct (exists_ (infer first)) eqn:E1, (isdir (infer first)) eqn:E2; cbn [andb negb] in H; try discriminate; injection H as <- <-; (split; [reflexivity|]; split; [reflexivity|]); congruence.
        - injection H as <- <-. auto.
        - destruct (exists_ (infer first)) eqn:E1, (isdir (infer first)) eqn:E2; cbn [andb negb] in H; try discriminate; injection H as <- <-; (split; [reflexivity|]; split; [reflexivity|]); congruence. }
      destruct Hs as [<- Hs]. split; [exact Sq|]. split; [now apply count_iff|exact Hs].
    - intros (paths' & mp' & fixed & Ha & Hx & F2 & Sq & ND & Hm). destruct (U _ _ Ha) as [-> ->]. rewrite F by exact Hx.
      rewrite (checked_nil check paths fixed sources F2 Sq). rewrite (proj2 (count_iff sources) ND).
      destruct mp as [[|c p]|]; [destruct sources as [|first l]|now subst|destruct sources as [|first l]].
      + now subst.
      + destruct Hm as [-> Hm]. destruct (exists_ (infer first)); [rewrite Hm by reflexivity|]; reflexivity.
      + now subst.
      + destruct Hm as [-> Hm]. destruct (exists_ (infer first)); [rewrite Hm by reflexivity|]; reflexivity.
  Qed.
End PathArguments.
Print Assumptions C99_arguments.

(** The inferred mount point is not the first source itself. *)
Theorem C99_inferred isdir exists_ check translate categories extra args sources m :
  mount_arguments isdir exists_ check (determine_mount_point translate categories) extra args = Ok (sources, m) ->
  (forall before p, args = before ++ [p] -> ~ is_mount_point isdir exists_ p) -> forall first rest, sources = first :: rest -> m <> first.
Proof.
  intros H N first rest ->. assert (Hne : args <> []) by (intros ->; discriminate).
  apply C99_arguments in H; [|exact Hne]. destruct H as (paths & mp & fixed & Ha & _ & _ & _ & _ & Hm).
  destruct Ha as [(p & E & M & _)|(-> & -> & _)]; [exfalso; now apply (N paths p)|]. destruct Hm as [-> _]. apply C48_differs.
Qed.
Print Assumptions C99_inferred.

Definition ex_isdir (p : str) : bool := str_eqb p $"mnt".
Definition ex_exists (p : str) : bool := existsb (str_eqb p) [$"mnt"; $"a.tar"; $"b.tar"].
Example C99_example :
  mount_arguments ex_isdir ex_exists (fun p => Ok p) (fun p => p ++ $".mounted") false [$"a.tar"; $"a.tar"; $"b.tar"; $"mnt"] =
    Ok ([$"a.tar"; $"b.tar"], $"mnt") /\
  mount_arguments ex_isdir ex_exists (fun p => Ok p) (fun p => p ++ $".mounted") false [$"a.tar"] = Ok ([$"a.tar"], $"a.tar.mounted") /\
  mount_arguments ex_isdir ex_exists (fun p => Ok p) (fun p => p ++ $".mounted") false [$"a.tar"; $"b.tar"; $"a.tar"] = Err RatarmountError.
Proof. repeat split. Qed.

(** ** C100: lists in options *)
(** The passwords that are tried: the one of the option, then the lines of the file, each once. *)
Theorem C100_passwords password lines : Forall (fun line => ~ In "010"%char line) lines -> lines <> [] ->
  forall r, order_of ((if list_eq_dec ascii_dec password [] then [] else [password]) ++ lines) r ->
  passwords password (Some (join ["010"%char] lines)) = r.
Proof.
  intros N Hne r O. unfold passwords. rewrite split_join by assumption. rewrite <- (order_remove _ _ O). f_equal. f_equal.
  destruct password; [now destruct (list_eq_dec ascii_dec [] [])|]. now destruct (list_eq_dec ascii_dec (a :: password) []).
Qed.
Print Assumptions C100_passwords.

(** The folders for indexes. *)
Theorem C100_folders json folders : folders <> [] -> Forall (fun folder => ~ In ","%char folder) folders ->
  (forall c rest, join $"," folders = c :: rest -> c <> "["%char) -> join $"," folders <> [] ->
  index_folders json (join $"," folders) = Ok folders.
Proof.
  intros Hne N B J. unfold index_folders. destruct (join $"," folders) as [|c rest] eqn:E; [congruence|].
  assert (H : char_eqb c "[" = false) by (destruct (char_eqb_spec c "["); [|reflexivity]; exfalso; now apply (B c rest)). rewrite H, <- E.
  assert (S : split "," (join $"," folders) = folders) by (change ($",") with ([","%char]); now apply split_join).
  destruct (existsb (char_eqb ",") (join $"," folders)) eqn:X; [now rewrite S|]. f_equal.
  rewrite split_no_sep in S; [exact S|]. intros I. assert (T : existsb (char_eqb ",") (join $"," folders) = true) by (apply existsb_exists; exists ","%char; split; [exact I|reflexivity]).
  congruence.
Qed.
Print Assumptions C100_folders.

(** The options for FUSE: exactly those given, the last one of each name; --prefix adds two, a folder with entries one. *)
Theorem C100_fuse parts options prefix nonempty : Forall2 option_text parts options -> options <> [] -> join $"," parts <> [] ->
  let d := fuse_options (join $"," parts) prefix nonempty in
  forall key, ~ In key [$"modules"; $"subdir"; $"nonempty"] -> forall value,
  dget str_eqb d key = Some value <-> exists before after, options = before ++ (key, value) :: after /\ ~ In key (map fst after).
Proof.
  intros F Hne J d key Hk value.
  assert (E : dget str_eqb d key = dget str_eqb (dict_of str_eqb options) key).
  { unfold d, fuse_options. destruct (join $"," parts) as [|c0 r0] eqn:Ej; [congruence|]. rewrite <- Ej.
    assert (M : map (fun option => match split1 "=" option with Some (k, v) => (k, Some v) | None => (option, None) end) (split "," (join $"," parts)) = options).
    { change ($",") with ([","%char]). rewrite split_join.
      - clear - F. induction F as [|p [k v] parts options (N1 & N2 & Hp) F IH]; [reflexivity|]. cbn [map fst snd] in *. rewrite IH. f_equal.
        destruct v as [v|].
        + destruct Hp as [-> _]. assert (S : split1 "=" (k ++ $"=" ++ v) = Some (k, v)) by now apply split1_Some. now rewrite S.
        + subst p. assert (S : split1 "=" k = None) by now apply split1_None. now rewrite S.
      - intros ->. inversion F; subst; congruence.
      - clear - F. induction F as [|p [k v] parts options (N1 & N2 & Hp) F IH]; constructor; [|exact IH]. cbn [fst snd] in *. destruct v as [v|]; [|now subst].
        destruct Hp as [-> Nv]. rewrite !in_app_iff. intros [I|[[I|[]]|I]]; [now apply N1|discriminate|now apply Nv]. }
    rewrite M. assert (K1 : key <> $"modules" /\ key <> $"subdir" /\ key <> $"nonempty") by (cbn in Hk; repeat split; intros ->; apply Hk; auto).
    destruct K1 as (K1 & K2 & K3).
    assert (G : forall e : list (str * option str), dget str_eqb (if nonempty then dset str_eqb e $"nonempty" None else e) key = dget str_eqb e key).
    { intros e. destruct nonempty; [|reflexivity]. now rewrite (dget_dset_other str_eqb str_eqb_spec). }
    rewrite G. destruct prefix; [reflexivity|]. now rewrite !(dget_dset_other str_eqb str_eqb_spec). }
  rewrite E. unfold dict_of. rewrite dget_dupdate_last. cbn [dget].
  assert (L : forall l : list (str * option str), dget str_eqb (rev l) key = Some value <-> exists before after, l = before ++ (key, value) :: after /\ ~ In key (map fst after)).
  { clear. intros l. induction l as [|[k v] l IH] using rev_ind.
    - split; [discriminate|]. intros ([|] & ? & ? & _); discriminate.
    - rewrite rev_app_distr. cbn [rev app dget]. destruct (str_eqb key k) eqn:Q.
      + apply str_eqb_eq in Q as <-. split.
        * intros [= ->]. exists l, []. auto.
        * intros (b & a & E & N). destruct a as [|x a] using rev_ind; [apply app_inj_tail in E as [_ [= ->]]; reflexivity|].
          rewrite app_comm_cons, app_assoc in E. apply app_inj_tail in E as [_ <-]. exfalso. apply N. rewrite map_app. apply in_or_app. right. now left.
      + apply str_eqb_neq in Q. rewrite IH. split.
        * intros (b & a & -> & N). exists b, (a ++ [(k, v)]). split; [now rewrite <- app_assoc|]. rewrite map_app, in_app_iff. cbn. intuition congruence.
        * intros (b & a & E & N). destruct a as [|x a _] using rev_ind; [apply app_inj_tail in E as [_ [= -> ->]]; congruence|].
          rewrite app_comm_cons, app_assoc in E. apply app_inj_tail in E as [-> _]. exists b, a. split; [reflexivity|]. intros I. apply N.
          rewrite map_app. apply in_or_app. now left. }
  rewrite <- L. now destruct (dget str_eqb (rev options) key).
Qed.
Print Assumptions C100_fuse.

Theorem C100_fuse_extra fuse prefix nonempty : let d := fuse_options fuse prefix nonempty in
  (prefix <> [] -> dget str_eqb d $"modules" = Some (Some $"subdir") /\ dget str_eqb d $"subdir" = Some (Some prefix)) /\
  (nonempty = true -> dget str_eqb d $"nonempty" = Some None).
Proof.
  unfold fuse_options. set (e := match fuse with [] => [] | _ => _ end). clearbody e. cbv zeta. split.
  - intros H. destruct prefix as [|c p]; [congruence|]. split; destruct nonempty; rewrite !(dget_dset str_eqb str_eqb_spec); reflexivity.
  - intros ->. now rewrite (dget_dset_same str_eqb str_eqb_spec).
Qed.
Print Assumptions C100_fuse_extra.

(** Lines that end with a carriage return keep it, so that a password file with such line ends does not hold its passwords. *)
Theorem C100_crlf_refuted : exists password file, (exists rest, file = password ++ ["013"%char; "010"%char] ++ rest) /\ ~ In password (passwords [] (Some file)).
Proof.
  exists $"secret", ($"secret" ++ ["013"%char; "010"%char] ++ $"other"). split; [eauto|]. vm_compute. intros [H|[H|[]]]; discriminate H.
Qed.
Print Assumptions C100_crlf_refuted.

Example C100_example :
  passwords $"b" (Some (join ["010"%char] [$"a"; $"b"; $"c"; $"a"])) = [$"b"; $"a"; $"c"] /\
  order_of [$"b"; $"a"; $"b"; $"c"; $"a"] [$"b"; $"a"; $"c"] /\
  index_folders (fun _ => Err ValueError) $",~/.cache" = Ok [[]; $"~/.cache"] /\
  option_text $"uid=0" ($"uid", Some $"0") /\ option_text $"allow_other" ($"allow_other", None) /\
  fuse_options $"uid=0,allow_other,uid=1" $"/sub" true =
    [($"uid", Some $"1"); ($"allow_other", None); ($"modules", Some $"subdir"); ($"subdir", Some $"/sub"); ($"nonempty", None)].
Proof.
  split; [reflexivity|]. split.
  - apply (oo_old [$"b"; $"a"; $"b"; $"c"]); [|right; now left]. apply (oo_new [$"b"; $"a"; $"b"] [$"b"; $"a"]); [|cbn; intuition discriminate].
    apply (oo_old [$"b"; $"a"]); [|now left]. apply (oo_new [$"b"] [$"b"]); [|cbn; intuition discriminate]. apply (oo_new [] []); [constructor|intros []].
  - split; [reflexivity|]. split; [|split; [|reflexivity]]; unfold option_text; cbn; intuition (discriminate || reflexivity).
Qed.
