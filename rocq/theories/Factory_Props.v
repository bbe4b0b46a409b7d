(** Properties C69 and C70: which backend opens a file, and which module undoes a compression. *)
From Coq Require Import Ascii String.
From Verif Require Import PyBase PyDict PyStr Format_Model Factory_Model Factory_Spec Factory_Proofs.
Local Open Scope Z_scope.

(** The user's order comes first, then the backends that the extension suggests (archives before compressions), then all others in
    the order of the table. *)
Theorem C69_choice :
  forall (Src : Type) (archives : list (str * archive_backend Src)) compressions extensions might_be,
  proper_tables archives compressions -> proper_backends archives might_be ->
  forall force prioritized path r,
  r = fst (open_mount_source Src archives compressions extensions might_be force prioritized (RegularFile path)) ->
  let usable := usable Src archives might_be in
  let works x := exists n s, stands_for compressions x n /\ usable n s in
  (forall x n s, first_in works prioritized x -> stands_for compressions x n -> usable n s -> r = Ok (Opened Src n s)) /\
  (Forall (fun x => ~ works x) prioritized ->
   (forall n s, first_in (fun n => suggested_archive Src archives extensions path n /\ exists s, usable n s) (map fst archives) n ->
                usable n s -> r = Ok (Opened Src n s)) /\
   ((forall n s, suggested_archive Src archives extensions path n -> ~ usable n s) ->
    (forall x c s, first_in (fun x => exists c s, In (x, c) compressions /\ named_like extensions path (c_formats c) /\ usable (c_delegated c) s)
                     (map fst compressions) x ->
                   In (x, c) compressions -> usable (c_delegated c) s -> r = Ok (Opened Src (c_delegated c) s)) /\
    ((forall n s, suggested_compression compressions extensions path n -> ~ usable n s) ->
     (forall n s, first_in (fun n => exists s, usable n s) (map fst archives) n -> usable n s -> r = Ok (Opened Src n s)) /\
     ((forall n s, ~ usable n s) -> r = Err RatarmountError)))).
Proof.
  intros Src archives compressions extensions might_be HT HB force prioritized path r Hr usable works.
  pose (names := prioritized ++ (by_archive Src archives extensions path ++ by_compression compressions extensions path) ++ map fst archives).
  assert (R : r = match pick Src archives compressions might_be names with Some (n, s) => Ok (Opened Src n s) | None => Err RatarmountError end).
  { subst r. cbn [open_mount_source fst]. rewrite (loop_pick Src archives compressions might_be HB false _ []) by (intros t []).
    fold names. change (prioritized ++ find_backends_by_extension Src archives compressions extensions path ++ map fst archives) with names.
    destruct (pick Src archives compressions might_be names) as [[n s]|]; reflexivity. }
  unfold names in R. clear names Hr. rewrite !pick_app in R. split.
  { intros x n s F S U. rewrite R. now rewrite (pick_first Src archives compressions might_be HT HB prioritized x n s F S U). }
  intros N1. apply (pick_none Src archives compressions might_be HT HB) in N1. rewrite N1 in R. clear N1. split.
  { intros n s F U. rewrite (pick_archives Src archives compressions might_be HT HB _ n s) in R; [exact R| | |exact U]; [apply by_archive_incl|eapply first_by_archive; eassumption]. }
  intros N2. rewrite (pick_no_archives Src archives compressions might_be HT HB (by_archive Src archives extensions path)) in R;
    [|apply by_archive_incl|intros n s I; apply N2; now apply by_archive_suggested]. split.
  { intros x c s F I U. rewrite (pick_archives Src archives compressions might_be HT HB _ (c_delegated c) s) in R; [exact R| | |exact U];
      [exact (by_compression_incl Src archives compressions extensions HT path)|now apply (first_by_compression Src archives compressions extensions might_be HT path x)]. }
  intros N3. rewrite (pick_no_archives Src archives compressions might_be HT HB (by_compression compressions extensions path)) in R;
    [|exact (by_compression_incl Src archives compressions extensions HT path)|intros n s I; apply N3; now apply by_compression_suggested]. split.
  - intros n s F U. rewrite (pick_archives Src archives compressions might_be HT HB _ n s) in R; [exact R|intros k K; exact K|exact F|exact U].
  - intros N4. rewrite (pick_no_archives Src archives compressions might_be HT HB (map fst archives)) in R; [exact R|intros k K; exact K|intros n s _; apply N4].
Qed.
Print Assumptions C69_choice.

(** Whether a file can be mounted depends neither on its name nor on the user's order. *)
Theorem C69_mounts_iff :
  forall (Src : Type) (archives : list (str * archive_backend Src)) compressions extensions might_be,
  proper_tables archives compressions -> proper_backends archives might_be ->
  forall force prioritized what, match what with RegularFile _ | Object _ 0 => True | _ => False end ->
  (exists n s, fst (open_mount_source Src archives compressions extensions might_be force prioritized what) = Ok (Opened Src n s)) <->
  (exists n s, usable Src archives might_be n s).
Proof.
  intros Src archives compressions extensions might_be HT HB force prioritized what Hw.
  assert (R : exists names, fst (open_mount_source Src archives compressions extensions might_be force prioritized what) =
    match pick Src archives compressions might_be (names ++ map fst archives) with Some (n, s) => Ok (Opened Src n s) | None => Err RatarmountError end).
  { destruct what as [| | |path|name [| |]]; try (now destruct Hw).
    - exists (prioritized ++ find_backends_by_extension Src archives compressions extensions path). cbn [open_mount_source fst].
      rewrite (loop_pick Src archives compressions might_be HB false _ []) by (intros t []). rewrite <- app_assoc.
      destruct (pick Src archives compressions might_be _) as [[n s]|]; reflexivity.
    - exists (prioritized ++ find_backends_by_extension Src archives compressions extensions name). cbn [open_mount_source fst].
      rewrite (loop_pick Src archives compressions might_be HB true _ []) by (intros t []). rewrite <- app_assoc.
      destruct (pick Src archives compressions might_be _) as [[n s]|]; reflexivity. }
  destruct R as (names & R). split.
  - intros (n & s & E). rewrite R in E. clear R. revert E. rewrite pick_app.
    assert (P : forall l r, pick Src archives compressions might_be l = Some r -> usable Src archives might_be (fst r) (snd r)).
    { induction l as [|x l IH]; cbn [pick]; [discriminate|]. intros r. destruct (verdict Src archives might_be (resolve compressions x)) as [s'|] eqn:V; [|apply IH].
      intros E. injection E as <-. cbn [fst snd]. now apply (verdict_usable Src archives compressions might_be HT HB). }
    destruct (pick Src archives compressions might_be names) as [[n' s']|] eqn:P1; [|destruct (pick Src archives compressions might_be (map fst archives)) as [[n' s']|] eqn:P2; [|discriminate]];
      intros E; injection E as <- <-; exists n', s'; [apply (P names (n', s') P1)|apply (P _ (n', s') P2)].
  - intros (n & s & U). rewrite R. destruct (pick Src archives compressions might_be (names ++ map fst archives)) as [[n' s']|] eqn:E; [now exists n', s'|].
    exfalso. apply (pick_none Src archives compressions might_be HT HB) in E. rewrite Forall_forall in E.
    pose proof (usable_archive Src archives might_be n s U) as I. apply (E n); [apply in_or_app; now right|].
    apply (archive_works Src archives compressions might_be HT HB n I). now exists s.
Qed.
Print Assumptions C69_mounts_iff.

(** Every backend is tried at most once, and only backends of the table are; this holds even if checks raise. *)
Theorem C69_each_once :
  forall (Src : Type) (archives : list (str * archive_backend Src)) compressions extensions might_be force prioritized what,
  let tried := snd (open_mount_source Src archives compressions extensions might_be force prioritized what) in
  NoDup tried /\ incl tried (map fst archives).
Proof.
  intros. assert (T : forall object names pos, let t := snd (open_loop Src archives compressions might_be object names [] pos) in NoDup t /\ incl t (map fst archives)).
  { intros object names pos. destruct (trace_nodup Src archives compressions might_be object names [] pos) as (A & B). split; [exact A|].
    intros n I. destruct (B n I) as (_ & b & J). change n with (fst (n, b)). now apply in_map. }
  subst tried. destruct what; cbn [open_mount_source snd]; try apply T; split; (constructor || intros ? []).
Qed.
Print Assumptions C69_each_once.

(** A path that does not exist is an error, a folder is served as a folder, and a split file that no backend can open is served as
    one file with the joined content. *)
Theorem C69_other_paths :
  forall (Src : Type) (archives : list (str * archive_backend Src)) compressions extensions might_be,
  proper_tables archives compressions -> proper_backends archives might_be ->
  forall force prioritized joined, joined <> [] ->
  let mount what := fst (open_mount_source Src archives compressions extensions might_be force prioritized what) in
  mount Missing = Err RatarmountError /\ mount Directory = Ok (if force then IndexedFolder Src else Folder Src) /\
  ((forall n s, ~ usable Src archives might_be n s) -> mount (Split joined) = Ok (SingleFile Src joined)) /\
  (forall n s, usable Src archives might_be n s -> exists n' s', mount (Split joined) = Ok (Opened Src n' s') /\ usable Src archives might_be n' s').
Proof.
  intros Src archives compressions extensions might_be HT HB force prioritized joined Hj mount. split; [reflexivity|]. split; [reflexivity|].
  assert (R : mount (Split joined) = match pick Src archives compressions might_be (prioritized ++ map fst archives) with
                                     | Some (n, s) => Ok (Opened Src n s) | None => Ok (SingleFile Src joined) end).
  { unfold mount. cbn [open_mount_source fst app]. rewrite (loop_pick Src archives compressions might_be HB true _ []) by (intros t []).
    destruct joined as [|c j]; [congruence|]. destruct (pick Src archives compressions might_be (prioritized ++ map fst archives)) as [[n s]|]; reflexivity. }
  assert (P : forall l r, pick Src archives compressions might_be l = Some r -> usable Src archives might_be (fst r) (snd r)).
  { induction l as [|x l IH]; cbn [pick]; [discriminate|]. intros r. destruct (verdict Src archives might_be (resolve compressions x)) as [s'|] eqn:V; [|apply IH].
    intros E. injection E as <-. cbn [fst snd]. now apply (verdict_usable Src archives compressions might_be HT HB). }
  rewrite R. destruct (pick Src archives compressions might_be (prioritized ++ map fst archives)) as [[n s]|] eqn:E.
  - split.
    + intros N. exfalso. apply (N n s). apply (P _ _ E).
    + intros _ _ _. exists n, s. split; [reflexivity|]. apply (P _ _ E).
  - split; [reflexivity|]. intros n s U. exfalso. apply (pick_none Src archives compressions might_be HT HB) in E. rewrite Forall_forall in E.
    pose proof (usable_archive Src archives might_be n s U) as I. apply (E n); [apply in_or_app; now right|].
    apply (archive_works Src archives compressions might_be HT HB n I). now exists s.
Qed.
Print Assumptions C69_other_paths.

(** An excerpt of the real tables: tarfile, zipfile and libarchive, and rapidgzip and libarchive as decompressors.
    Formats: 1 TAR, 2 GZIP, 3 ZIP, 4 LZ4.  The file is a ZIP with the name x.TGZ; libarchive is not installed. *)
Definition example_archives : list (str * archive_backend nat) :=
  [($"tarfile", mkArchive nat (fun pos => (Err RatarmountError, 512)) [1; 2]); ($"zipfile", mkArchive nat (fun pos => (Ok (Some 7%nat), pos)) [3]);
   ($"libarchive", mkArchive nat (fun pos => (Ok None, 0)) [1; 2; 3; 4])].
Definition example_compressions : list (str * compression_backend) :=
  [($"rapidgzip", mkCompression [2] [$"rapidgzip"] $"tarfile"); ($"libarchive", mkCompression [2; 4] [$"libarchive"] $"libarchive")].
Definition example_extensions (fid : Z) : list str := if fid =? 1 then [$"tar"; $"tgz"] else if fid =? 3 then [$"zip"] else [].
Definition example_check (fid pos : Z) : res bool := Ok (fid =? 3).
Example C69_example :
  proper_tables example_archives example_compressions /\ proper_backends example_archives example_check /\
  usable nat example_archives example_check $"zipfile" 7%nat /\ suggested_archive nat example_archives example_extensions $"x.TGZ" $"tarfile" /\
  open_mount_source nat example_archives example_compressions example_extensions example_check false [$"rapidgzip"] (RegularFile $"x.TGZ") =
    (Ok (Opened nat $"zipfile" 7%nat), [$"libarchive"; $"zipfile"]).
Proof.
  split; [|split; [|split; [|split]]].
  - split; [|split; [|split]].
    + cbn [example_archives map fst]. repeat constructor; cbn [In]; intros H; repeat destruct H as [H|H]; try discriminate; exact H.
    + cbn [example_compressions map fst]. repeat constructor; cbn [In]; intros H; repeat destruct H as [H|H]; try discriminate; exact H.
    + intros x c [E|[E|[]]]; injection E as <- <-; cbn [c_delegated example_archives map fst In]; tauto.
    + intros x c [E|[E|[]]] I; injection E as <- <-; cbn [c_delegated]; [|reflexivity]. destruct I as [I|[I|[I|[]]]]; discriminate.
  - split; [intros fid; eexists; reflexivity|]. intros n b [E|[E|[E|[]]]]; injection E as <- <-; cbn; (discriminate || reflexivity).
  - exists (mkArchive nat (fun pos => (Ok (Some 7%nat), pos)) [3]). split; [right; now left|]. split; [right; exists 3; split; [now left|reflexivity]|reflexivity].
  - exists (mkArchive nat (fun pos => (Err RatarmountError, 512)) [1; 2]). split; [now left|].
    exists 1, $"tgz", $"x", $".TGZ". split; [now left|]. split; [right; now left|]. split; [reflexivity|]. apply same_letters_eq. reflexivity.
  - reflexivity.
Qed.

(** Without the assumption that a failing backend leaves the file object at its start, the next ones look at the wrong bytes. *)
Theorem C69_moved_object_refuted :
  exists (archives : list (str * archive_backend nat)) might_be,
  proper_tables archives [] /\ (forall fid pos, exists b, might_be fid pos = Ok b) /\
  (exists n s, usable nat archives might_be n s) /\
  fst (open_mount_source nat archives [] (fun _ => []) might_be false [] (Object [] 0)) = Err RatarmountError /\
  is_ok (fst (open_mount_source nat archives [] (fun _ => []) might_be false [] (RegularFile []))) = true.
Proof.
  exists [($"a", mkArchive nat (fun pos => (Ok None, 5)) [1]); ($"b", mkArchive nat (fun pos => (Ok (Some 7%nat), pos)) [2])],
    (fun fid pos => Ok (pos =? 0)).
  split; [|split; [|split; [|split]]].
  - split; [|split; [|split]]; try (intros ? ? []); try constructor; cbn [map fst].
    + intros [E|[]]; discriminate.
    + repeat constructor; intros [].
  - intros fid pos. eexists. reflexivity.
  - exists $"b", 7%nat. eexists. split; [right; now left|]. split; [right; exists 2; split; [now left|reflexivity]|reflexivity].
  - reflexivity.
  - reflexivity.
Qed.
Print Assumptions C69_moved_object_refuted.

(** ** C70: the decompressor *)
Theorem C70_decompressor :
  forall compressions loaded compression prioritized, NoDup (map fst compressions) ->
  let can := can_undo compressions loaded compression in
  let r := find_available_backend compressions loaded compression prioritized in
  (forall n b, first_in (fun n => exists b, can (n, b)) prioritized n -> can (n, b) -> r = Some (n, b)) /\
  (Forall (fun n => forall b, ~ can (n, b)) prioritized ->
   (forall n b, first_in (fun n => exists b, can (n, b)) (map fst compressions) n -> can (n, b) -> r = Some (n, b)) /\
   ((forall n b, ~ can (n, b)) -> r = None)).
Proof.
  intros compressions loaded compression prioritized NC can r. split.
  - intros n b F (I & _). now apply find_prioritized.
  - intros N. split.
    + intros n b F (I & _). apply find_table; [exact NC| |exact F|exact I]. eapply Forall_impl; [|exact N]. intros k H (c & C). now apply (H c).
    + intros Z. apply find_none; [exact NC|]. intros n (b & C). now apply (Z n b).
Qed.
Print Assumptions C70_decompressor.

(** The detection does not move the file, and it only ever answers with a format whose check accepts the file and whose decompressor
    can open it; it answers with the first such format if a decompressor is installed for all formats before it that match. *)
Theorem C70_detect :
  forall compressions might_be loaded prioritized opens ids offset r pos,
  NoDup (map fst compressions) ->
  (forall fid, exists b, might_be fid offset = Ok b) ->
  detect_compression compressions might_be loaded prioritized opens ids offset offset = (r, pos) ->
  let undo id := find_available_backend compressions loaded id prioritized in
  let good id := might_be id offset = Ok true /\ exists n b, undo id = Some (n, b) /\ fst (opens n id) = true in
  pos = offset /\
  (forall id, r = Ok (Some id) -> first_in good ids id) /\
  (forall id, first_in good ids id ->
     (forall before after, ids = before ++ id :: after -> forall k, In k before -> might_be k offset = Ok true -> undo k <> None) ->
     r = Ok (Some id)) /\
  ((forall id, In id ids -> ~ good id) -> r = Ok None).
Proof.
  intros compressions might_be loaded prioritized opens ids offset r pos NC HC E undo good. revert E.
  induction ids as [|id ids IH]; cbn [detect_compression].
  - intros E. injection E as <- <-. split; [reflexivity|]. split; [discriminate|]. split; [|reflexivity].
    intros id (before & after & H & _). destruct before; discriminate.
  - destruct (HC id) as ([|] & M); rewrite M.
    + fold (undo id). destruct (undo id) as [[n b]|] eqn:U.
      * destruct (opens n id) as [[|] pos'] eqn:O.
        -- intros E. injection E as <- <-. split; [reflexivity|].
           assert (G : good id) by (split; [exact M|]; exists n, b; split; [exact U|now rewrite O]).
           split; [intros k E; injection E as <-; exists [], ids; split; [reflexivity|]; split; [exact G|constructor]|]. split.
           ++ intros k (before & after & E & _ & N) _. destruct before as [|k' before]; injection E as <- E; [reflexivity|].
              exfalso. now apply (Forall_inv N).
           ++ intros N. exfalso. apply (N id); [now left|exact G].
        -- assert (NG : ~ good id).
           { intros (_ & n' & b' & U' & O'). rewrite U in U'. injection U' as <- <-. rewrite O in O'. discriminate. }
           intros E. destruct (IH E) as (A & B & C & D). split; [exact A|]. split; [|split].
           ++ intros k K. destruct (B k K) as (before & after & -> & G & N). exists (id :: before), after. split; [reflexivity|]. split; [exact G|]. now constructor.
           ++ intros k (before & after & E' & G & N) H1. destruct before as [|k' before]; injection E' as <- E'; [contradiction|].
              apply C.
              ** exists before, after. split; [exact E'|]. split; [exact G|]. now apply Forall_inv_tail in N.
              ** intros b1 a1 E1 k1 I1 M1. apply (H1 (id :: b1) a1); [now rewrite E1|now right|exact M1].
           ++ intros N. apply D. intros k I. apply N. now right.
      * assert (NG : ~ good id) by (intros (_ & n' & b' & U' & _); congruence).
        intros E. injection E as <- <-. split; [reflexivity|]. split; [discriminate|]. split; [|reflexivity].
        intros k (before & after & E' & G & N) H1. destruct before as [|k' before]; injection E' as <- E'; [contradiction|].
        exfalso. refine (H1 (id :: before) after _ id _ M U); [now rewrite E'|now left].
    + assert (NG : ~ good id) by (intros (M' & _); congruence).
      intros E. destruct (IH E) as (A & B & C & D). split; [exact A|]. split; [|split].
      ++ intros k K. destruct (B k K) as (before & after & -> & G & N). exists (id :: before), after. split; [reflexivity|]. split; [exact G|]. now constructor.
      ++ intros k (before & after & E' & G & N) H1. destruct before as [|k' before]; injection E' as <- E'; [contradiction|].
         apply C.
         ** exists before, after. split; [exact E'|]. split; [exact G|]. now apply Forall_inv_tail in N.
         ** intros b1 a1 E1 k1 I1 M1. apply (H1 (id :: b1) a1); [now rewrite E1|now right|exact M1].
      ++ intros N. apply D. intros k I. apply N. now right.
Qed.
Print Assumptions C70_detect.

(** A format before the right one whose check also accepts the file and for which no module is installed ends the detection. *)
Theorem C70_missing_module_refuted :
  exists compressions might_be loaded opens ids,
  NoDup (map fst compressions) /\ (forall fid, exists b, might_be fid 0 = Ok b) /\
  (exists id n b, In id ids /\ might_be id 0 = Ok true /\ find_available_backend compressions loaded id [] = Some (n, b) /\ fst (opens n id) = true) /\
  fst (detect_compression compressions might_be loaded [] opens ids 0 0) = Ok None.
Proof.
  exists [($"rapidgzip", mkCompression [1] [$"rapidgzip"] $"tarfile"); ($"libarchive", mkCompression [2] [] $"libarchive")],
    (fun _ _ => Ok true), [], (fun _ _ => (true, 0)), [1; 2].
  split; [|split; [|split]].
  - cbn [map fst]. constructor; [intros [E|[]]; discriminate|]. constructor; [intros []|constructor].
  - intros fid. eexists. reflexivity.
  - exists 2, $"libarchive", (mkCompression [2] [] $"libarchive"). split; [right; now left|]. split; [reflexivity|]. split; reflexivity.
  - reflexivity.
Qed.
Print Assumptions C70_missing_module_refuted.

Example C70_example :
  can_undo example_compressions [$"libarchive"] 2 ($"libarchive", mkCompression [2; 4] [$"libarchive"] $"libarchive") /\
  ~ can_undo example_compressions [$"libarchive"] 2 ($"rapidgzip", mkCompression [2] [$"rapidgzip"] $"tarfile") /\
  option_map fst (find_available_backend example_compressions [$"libarchive"] 2 [$"rapidgzip"; $"unknown"]) = Some $"libarchive" /\
  detect_compression example_compressions (fun fid _ => Ok (fid =? 2)) [$"libarchive"; $"rapidgzip"] [$"libarchive"] (fun _ _ => (true, 77)) [1; 2; 4] 3 3 =
    (Ok (Some 2), 3).
Proof.
  split; [|split; [|split; reflexivity]].
  - split; [right; now left|]. split; [now left|]. intros m I. exact I.
  - intros (_ & _ & L). cbn in L. specialize (L _ (or_introl eq_refl)). destruct L as [L|[]]. discriminate.
Qed.
