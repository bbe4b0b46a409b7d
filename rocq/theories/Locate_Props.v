(** C44, C55, C56, C57, C58: where the index of an archive is looked for, which one is used, and which files are removed. *)
From Coq Require Import Ascii String.
From Verif Require Import PyBase PyStr Path_Spec Locate_Model Locate_Spec Locate_Proofs.
Open Scope Z_scope.

(** C44: an explicitly given index file is the only candidate, whatever the other options are, and with ":memory:" there is none. *)
Theorem C44_explicit :
  forall {C} (size : C -> Z) home cwd extensions fs folders archive ignore,
  possible_paths size home cwd extensions fs (Some $":memory:") folders archive ignore = [] /\
  forall index, index <> [] -> index <> $":memory:" -> ~ url index ->
    exists p, possible_paths size home cwd extensions fs (Some index) folders archive ignore = [p] /\
      (starts_with $"/" index = true -> denotes p = denotes index /\ starts_with $"/" p = true).
Proof.
  intros C size home cwd extensions fs folders archive ignore. split; [reflexivity|]. intros i N M U. eexists. split; [now apply possible_explicit|].
  intros A. destruct i as [|c r]; [congruence|]. pose proof A as A0. apply starts_with_spec in A0 as (t & E). injection E as -> ->.
  rewrite expanduser_other by discriminate. unfold abspath. rewrite A. now apply norm_abs.
Qed.
Print Assumptions C44_explicit.

(** C44: otherwise a URL that was given comes first, then for every index folder in the given order: for the empty folder the file
    next to the archive and then its compressed variants that exist, for every other folder the file in it that is named like the
    path of the archive with underscores.  Without index folders it is the place next to the archive and then memory. *)
Theorem C44_candidates :
  forall {C} (size : C -> Z) home cwd extensions (fs : str -> option C) folders archive ignore url_given,
  starts_with $"/" cwd = true -> (forall u h, home u = Some h -> starts_with $"/" h = true) ->
  archive <> [] -> (url_given = None \/ exists u, url_given = Some u /\ url u) ->
  let urls := match url_given with Some u => [u] | None => [] end in
  let beside := (archive ++ $".index.sqlite") ::
    filter (fun p => match fs p with Some c => 0 <? size c | None => false end) (map (fun e => archive ++ $".index.sqlite." ++ e) extensions) in
  let found := possible_paths size home cwd extensions fs url_given folders (Some archive) ignore in
  (folders = [] -> found = urls ++ beside ++ [$":memory:"]) /\
  (folders <> [] -> exists groups, found = urls ++ concat groups /\
     Forall2 (fun f group =>
       (f = [] /\ group = if ignore then [] else beside) \/
       (exists full p name, full_folder home cwd f full /\ group = [p] /\ underscored (archive ++ $".index.sqlite") name /\
                            denotes p = denotes full ++ [name] /\ starts_with $"/" p = true)) folders groups).
Proof.
  intros C size home cwd extensions fs folders archive ignore ug Hcwd Hhome Na Hu. cbv zeta. unfold possible_paths. destruct archive as [|a0 ar] eqn:Ea; [congruence|]. rewrite <- Ea in *. clear Ea a0 ar.
  set (beside := (archive ++ $".index.sqlite") :: _).
  assert (default_paths size extensions fs (archive ++ $".index.sqlite") = beside) as Eb.
  { unfold default_paths, beside. f_equal. f_equal. apply map_ext. intros e. rewrite <- !app_assoc. reflexivity. }
  set (urls := match ug with Some u => [u] | None => [] end).
  match goal with |- (_ -> ?x = _) /\ _ => assert (x = match folders with [] => urls ++ beside ++ [memory] | _ => urls ++ flat_map (fun folder => match folder with [] => if ignore then [] else beside | _ => [abspath cwd (expanduser home (path_join folder (flat (archive ++ $".index.sqlite"))))] end) folders end) as Ex end.
  { destruct Hu as [->|(u & -> & Uu)].
    - rewrite Eb. destruct folders; reflexivity.
    - assert (match u with [] => None | _ => Some u end = Some u) as Eu by (destruct u; [destruct Uu as (x & y & E); destruct x; discriminate|reflexivity]).
      assert (match Some u with Some [] => None | _ => Some u end = Some u) as -> by exact Eu. destruct (str_eqb_spec u memory) as [Em|_].
      { exfalso. subst u. apply is_url_spec in Uu. discriminate. } rewrite (proj2 (is_url_spec u) Uu), Eb. destruct folders; reflexivity. }
  rewrite Ex. clear Ex. split.
  - intros ->. reflexivity.
  - intros Nf. exists (map (fun folder => match folder with [] => if ignore then [] else beside | _ => [abspath cwd (expanduser home (path_join folder (flat (archive ++ $".index.sqlite"))))] end) folders).
    split; [rewrite <- flat_map_concat_map; destruct folders; [congruence|reflexivity]|]. clear Nf. induction folders as [|f fr IH]; [constructor|]. cbn [map]. constructor; [|exact IH].
    destruct f as [|c f]; [now left|right].
    assert (exists full, full_folder home cwd (c :: f) full) as (full & F).
    { destruct (ascii_dec c "/"%char) as [->|N1]; [eexists; constructor|]. destruct (ascii_dec c "~"%char) as [->|N2]; [|eexists; now constructor].
      assert (exists user r, f = user ++ r /\ ~ In slash user /\ (r = [] \/ exists r', r = slash :: r')) as (user & r & -> & Nu & R).
      { destruct (split1 slash f) as [[a b]|] eqn:Es; [apply split1_Some in Es as [-> Ns]; exists a, (slash :: b); repeat split; [exact Ns|right; now exists b]|apply split1_None in Es; exists f, []; rewrite app_nil_r; auto]. }
      destruct (home ("~"%char :: user)) as [h|] eqn:Hh; eexists; [exact (full_home home cwd h user r Nu Hh R)|exact (full_unknown home cwd user r Nu Hh R)]. }
    assert (proper_name (flat (archive ++ $".index.sqlite"))) as P by (apply flat_proper; rewrite app_length; cbn; lia).
    destruct (folder_file home cwd Hcwd Hhome (c :: f) full _ F P) as (A & D & _). eexists full, _, _. split; [exact F|]. split; [reflexivity|]. split; [apply flat_underscored|]. split; [exact D|exact A].
Qed.
Print Assumptions C44_candidates.

Definition ex_home (u : str) : option str := if str_eqb u $"~" then Some $"/home/u" else None.
Example C44_example :
  let fs : str -> option nat := fun p => if str_eqb p $"/x/a.tar.index.sqlite.gz" then Some 5%nat else None in
  possible_paths Z.of_nat ex_home $"/work" [$"gz"; $"xz"] fs None [[]; $"~/.ratarmount"; $"rel/"] (Some $"/x/a.tar") false =
    [$"/x/a.tar.index.sqlite"; $"/x/a.tar.index.sqlite.gz"; $"/home/u/.ratarmount/_x_a.tar.index.sqlite"; $"/work/rel/_x_a.tar.index.sqlite"] /\
  possible_paths Z.of_nat ex_home $"/work" [$"gz"; $"xz"] fs (Some $"../i") [[]] (Some $"/x/a.tar") false = [$"/i"] /\
  index_folders (Some $"~/.cache") FoldersNone = [[]; $"~/.cache/ratarmount"; $"~/.ratarmount"].
Proof. cbv zeta. repeat split; vm_compute; reflexivity. Qed.

(** C44: different archives have different index files next to them, but in an index folder they can have the same. *)
Theorem C44_distinct :
  forall a b : str, a <> b -> a ++ $".index.sqlite" <> b ++ $".index.sqlite".
Proof. intros a b N E. apply N. now apply app_inv_tail in E. Qed.
Theorem C44_collision_refuted :
  exists a b folder, a <> b /\
    forall (fs : str -> option nat) home, possible_paths Z.of_nat home $"/" [] fs None [folder] (Some a) false = possible_paths Z.of_nat home $"/" [] fs None [folder] (Some b) false.
Proof. exists $"/x/a_b.tar", $"/x/a/b.tar", $"/cache". split; [discriminate|]. reflexivity. Qed.
Print Assumptions C44_collision_refuted.

(** C55: the first candidate whose file is accepted is used.  The existing candidates before it, which were not accepted, are
    removed unless the index is read-only.  Nothing else on the disk changes.  The candidates before it must not be compressed:
    see [C55_stale_refuted]. *)
Theorem C55_first :
  forall {C} removable (undo : C -> undone C) fetch verdict (st : state (C := C)) before c after d d',
  connection st = None -> temporary st = None ->
  (forall p, In p (before ++ [c]) -> ~ url p) ->
  (forall p x, In p before -> disk st p = Some x -> undo x = Plain /\ exists e, verdict x = Err e /\ e <> MismatchingIndexError) ->
  disk st c = Some d -> (undo d = Plain /\ d' = d) \/ undo d = Copied d' None ->
  (verdict d' = Ok tt ->
     exists st', open_existing removable undo fetch verdict st (before ++ c :: after) = (Ok tt, st') /\
       connection st' = Some d' /\ without (fun p => removable p && negb (read_only st)) before (disk st) (disk st')) /\
  (verdict d' = Err MismatchingIndexError ->
     exists st', open_existing removable undo fetch verdict st (before ++ c :: after) = (Err MismatchingIndexError, st') /\
       connection st' = None /\ without (fun p => removable p && negb (read_only st)) before (disk st) (disk st')).
Proof.
  intros C removable undo fetch verdict st before c after d d' Hc Ht U F D K.
  assert (forall p, In p before -> unfit undo verdict (disk st) p) as F'.
  { intros p Ip. unfold unfit. destruct (disk st p) as [x|] eqn:E; [|now left]. destruct (F p x Ip E) as (P & e & V & M). right. now exists x, e. }
  destruct (existing_skip removable undo fetch verdict before st (c :: after) Hc Ht (fun p Ip => U p (in_or_app _ _ _ (or_introl Ip))) F') as (st1 & E & C1 & T1 & R1 & _ & W).
  assert (verdict d' = Ok tt \/ verdict d' = Err MismatchingIndexError -> disk st1 c = Some d) as D1.
  { intros V. destruct (in_dec (list_eq_dec ascii_dec) c before) as [I|I]; [|now rewrite (proj1 (W c) I)]. exfalso. destruct (F c d I D) as (P & e & Ve & M). destruct K as [[_ ->]|K]; [destruct V; congruence|congruence]. }
  rewrite E. split; intros V.
  - destruct (existing_good removable undo fetch verdict st1 c after d d' C1 T1) as [G _]; [apply U, in_or_app; right; now left|apply D1; now left|exact K|]. destruct (G V) as (st' & -> & Cx & _ & Dx). exists st'. rewrite Dx. auto.
  - destruct (existing_good removable undo fetch verdict st1 c after d d' C1 T1) as [_ G]; [apply U, in_or_app; right; now left|apply D1; now right|exact K|]. destruct (G V) as (st' & -> & Cx & Dx). exists st'. rewrite Dx. auto.
Qed.
Print Assumptions C55_first.

(** C55: if no existing candidate is accepted, none is loaded and all of them are removed. *)
Theorem C55_none :
  forall {C} removable (undo : C -> undone C) fetch verdict (st : state (C := C)) candidates,
  connection st = None -> temporary st = None ->
  (forall p, In p candidates -> ~ url p) ->
  (forall p x, In p candidates -> disk st p = Some x -> undo x = Plain /\ exists e, verdict x = Err e /\ e <> MismatchingIndexError) ->
  exists st', open_existing removable undo fetch verdict st candidates = (Ok tt, st') /\
    connection st' = None /\ without (fun p => removable p && negb (read_only st)) candidates (disk st) (disk st').
Proof.
  intros C removable undo fetch verdict st cs Hc Ht U F.
  destruct (existing_skip removable undo fetch verdict cs st [] Hc Ht U) as (st1 & E & C1 & T1 & R1 & _ & W).
  { intros p Ip. unfold unfit. destruct (disk st p) as [x|] eqn:Ex; [|now left]. destruct (F p x Ip Ex) as (P & e & V & M). right. now exists x, e. }
  rewrite app_nil_r in E. rewrite E. exists st1. auto.
Qed.
Print Assumptions C55_none.

Definition ex_disk0 : str -> option nat := fun p => if str_eqb p $"/b" then Some 4%nat else None.

(** C55: a candidate may be given as a file:// URL.  An index that is not accepted is then kept. *)
Theorem C55_file_url :
  forall {C} removable (undo : C -> undone C) fetch verdict (st : state (C := C)) c after d d',
  connection st = None -> temporary st = None -> ~ url c -> disk st c = Some d -> (undo d = Plain /\ d' = d) \/ undo d = Copied d' None ->
  (verdict d' = Ok tt ->
     exists st', open_existing removable undo fetch verdict st (($"file://" ++ c) :: after) = (Ok tt, st') /\ connection st' = Some d' /\ disk st' = disk st) /\
  (forall e, verdict d' = Err e -> e <> MismatchingIndexError ->
     exists st', open_existing removable undo fetch verdict st [$"file://" ++ c] = (Ok tt, st') /\ connection st' = None /\ disk st' = disk st).
Proof.
  intros C removable undo fetch verdict st c after d d' Hc Ht U D K.
  assert (N0 : count_sub $"://" c = 0%nat).
  { destruct (count_sub $"://" c) eqn:E; [reflexivity|]. exfalso. apply U, is_url_spec, count_contains. rewrite E. lia. }
  assert (L : load_index undo fetch verdict st ($"file://" ++ c) = load_index undo fetch verdict st c).
  { unfold load_index. rewrite Hc, (count_not_url c U). replace (Nat.eqb (count_sub $"://" ($"file://" ++ c)) 1) with true; [reflexivity|].
    symmetry. apply Nat.eqb_eq. change (count_sub $"://" ($"file://" ++ c)) with (S (count_sub $"://" c)). now rewrite N0. }
  assert (I : is_url ($"file://" ++ c) = true) by (apply is_url_spec; now exists $"file", c).
  split.
  - intros V. cbn [open_existing]. unfold try_load_index, is_loaded. rewrite Hc, L. unfold load_index.
    rewrite Hc, (count_not_url c U), (not_url c U), D. destruct K as [[P ->]|P]; rewrite P; unfold load_database; cbn [temporary with_temporary]; rewrite ?Ht, V;
      cbn [connection]; eexists; repeat split.
  - intros e V M. cbn [open_existing]. unfold try_load_index, is_loaded. rewrite Hc, L, I. unfold load_index.
    rewrite Hc, (count_not_url c U), (not_url c U), D. destruct K as [[P ->]|P]; rewrite P; unfold load_database; cbn [temporary with_temporary]; rewrite ?Ht, V;
      destruct e; try congruence; cbn [negb andb]; rewrite andb_false_r; cbn [connection]; eexists; repeat split.
Qed.
Print Assumptions C55_file_url.
Example C55_file_url_example :
  ~ url $"/b" /\ ex_disk0 $"/b" = Some 4%nat /\
  let r := open_existing (fun _ => true) (fun _ => Plain) (fun _ => Err RuntimeError) (fun _ => Ok tt) (mkState ex_disk0 None Nowhere None false false) [$"file:///b"] in
  fst r = Ok tt /\ connection (snd r) = Some 4%nat.
Proof. split; [intros U; apply is_url_spec in U; discriminate|]. cbv zeta. repeat split. Qed.

Definition ex_disk : str -> option nat := fun p => if str_eqb p $"/a" then Some 3%nat else if str_eqb p $"/b" then Some 4%nat else None.
Definition ex_verdict (n : nat) : res unit := if Nat.even n then Ok tt else Err RatarmountError.
Definition ex_state : state := mkState ex_disk None Nowhere None false false.
Example C55_example :
  (forall p, In p ([$"/none"; $"/a"] ++ [$"/b"]) -> ~ url p) /\
  (forall p x, In p [$"/none"; $"/a"] -> ex_disk p = Some x -> @Plain nat = Plain /\ exists e, ex_verdict x = Err e /\ e <> MismatchingIndexError) /\
  let r := open_existing (fun _ => true) (fun _ => Plain) (fun _ => Err RuntimeError) ex_verdict ex_state [$"/none"; $"/a"; $"/b"; $"/c"] in
  fst r = Ok tt /\ connection (snd r) = Some 4%nat /\ disk (snd r) $"/a" = None.
Proof.
  split; [intros p H U; apply is_url_spec in U; destruct H as [<-|[<-|[<-|[]]]]; discriminate|]. split; [|cbv zeta; repeat split; vm_compute; reflexivity].
  intros p x [<-|[<-|[]]] E; vm_compute in E; [discriminate|]. injection E as <-. split; [reflexivity|]. exists RatarmountError. split; [reflexivity|discriminate].
Qed.

(** C55 is false with compressed indexes: after a compressed index that is not accepted, the temporary copy of it is opened in
    place of the next index, and that one, which is fine, is removed. *)
Theorem C55_stale_refuted :
  exists (undo : nat -> undone nat) verdict (st : state (C := nat)) a b,
  connection st = None /\ temporary st = None /\ read_only st = false /\
  disk st a = Some 9%nat /\ undo 9%nat = Copied 3%nat None /\ verdict 3%nat = Err RatarmountError /\
  disk st b = Some 4%nat /\ undo 4%nat = Plain /\ verdict 4%nat = Ok tt /\
  let r := open_existing (fun _ => true) undo (fun _ => Err RuntimeError) verdict st [a; b] in
  connection (snd r) = None /\ disk (snd r) b = None.
Proof.
  exists (fun n => if Nat.eqb n 9 then Copied 3%nat None else Plain), ex_verdict,
    (mkState (fun p => if str_eqb p $"/x.tar.index.sqlite.gz" then Some 9%nat else if str_eqb p $"/home/u/.ratarmount/_x.tar.index.sqlite" then Some 4%nat else None) None Nowhere None false false),
    $"/x.tar.index.sqlite.gz", $"/home/u/.ratarmount/_x.tar.index.sqlite". cbv zeta. repeat split; vm_compute; reflexivity.
Qed.
Print Assumptions C55_stale_refuted.

(** C56: whatever is found and however checks, downloads and writes turn out, files that are not candidates are neither removed
    nor changed nor created by looking for an index, clearing the indexes or creating a new one; and if no index file is given, the
    archive is not a candidate. *)
Theorem C56_only_candidates :
  forall {C} (size : C -> Z) removable undo fetch verdict write sql_usable fresh (st : state (C := C)) candidates p,
  ~ In p candidates ->
  disk (snd (open_existing removable undo fetch verdict st candidates)) p = disk st p /\
  snd (clear_indexes removable (disk st) candidates) p = disk st p /\
  disk (snd (open_writable size write sql_usable fresh st candidates)) p = disk st p.
Proof.
  intros C size removable undo fetch verdict write sql_usable fresh st cs p N. split; [now apply existing_disk; left|]. split; [now apply clear_disk|].
  unfold open_writable. destruct (read_only st); [reflexivity|]. pose proof (find_disk size write sql_usable cs (disk st) p N) as F. pose proof (find_first size write sql_usable cs (disk st)) as FF.
  set (st' := match cs with [] => _ | _ => _ end). enough (disk st' p = disk st p) by (destruct (is_loaded st'); assumption). subst st'.
  destruct cs as [|q qs]; [reflexivity|]. destruct (prefer_memory st); [reflexivity|]. destruct (find_usable _ _ _ _ _) as [[q'|] fs]; cbn [snd fst] in *; [|exact F].
  destruct (str_eqb q' memory); cbn [disk]; [exact F|]. rewrite put_other; [exact F|]. intros ->. destruct FF as (b & a & E & _). apply N. rewrite E. apply in_or_app. right. now left.
Qed.
Print Assumptions C56_only_candidates.

Theorem C56_archive_safe :
  forall {C} (size : C -> Z) home cwd extensions fs folders archive ignore,
  archive <> $":memory:" -> ~ In archive (possible_paths size home cwd extensions fs None folders (Some archive) ignore).
Proof. intros. now apply archive_not_candidate. Qed.
Print Assumptions C56_archive_safe.

(** C56: with read-only indexes looking for an index and opening one for writing change no file.  Clearing the indexes does. *)
Theorem C56_read_only :
  forall {C} (size : C -> Z) removable undo fetch verdict write sql_usable fresh (st : state (C := C)) candidates p,
  read_only st = true ->
  disk (snd (open_existing removable undo fetch verdict st candidates)) p = disk st p /\
  disk (snd (open_writable size write sql_usable fresh st candidates)) p = disk st p.
Proof. intros C size removable undo fetch verdict write sql_usable fresh st cs p R. split; [now apply existing_disk; right|]. unfold open_writable. now rewrite R. Qed.
Print Assumptions C56_read_only.
Theorem C56_clear_refuted :
  forall {C} removable (st : state (C := C)) p c, read_only st = true -> disk st p = Some c -> removable p = true -> p <> [] ->
  snd (clear_indexes removable (disk st) [p]) p = None.
Proof. intros C removable st p c _ E R N. cbn [clear_indexes]. rewrite (proj2 (str_eqb_neq p []) N), E. cbn. unfold os_remove. rewrite E, R. apply put_same. Qed.
Print Assumptions C56_clear_refuted.
Theorem C56_clear :
  forall {C} removable (fs fs' : str -> option C) candidates, clear_indexes removable fs candidates = (Ok tt, fs') ->
  forall p, In p candidates -> p <> [] -> fs' p = None.
Proof. intros. eapply clear_all; eassumption. Qed.
Print Assumptions C56_clear.
Example C56_example :
  fst (clear_indexes (fun _ => true) ex_disk [$"/a"; []; $"/b"]) = Ok tt /\ ~ In $"/c" [$"/a"; $"/b"] /\ read_only (mkState ex_disk None Nowhere None true false) = true.
Proof. split; [reflexivity|]. split; [intros [X|[X|[]]]; discriminate|reflexivity]. Qed.

(** C57: a new index is created at the first candidate where that is possible: no URL, no file with content is there, and writing
    and creating tables work.  A file with content is never overwritten or removed by creating an index, and if no candidate is
    possible an error is raised. *)
Theorem C57_first_possible :
  forall {C} (size : C -> Z) write sql_usable fresh (st : state (C := C)) candidates,
  read_only st = false -> prefer_memory st = false -> connection st = None -> candidates <> [] ->
  let possible p := ~ url p /\ (forall c, disk st p = Some c -> size c <= 0) /\ write p = Written /\ sql_usable p = true in
  let r := open_writable size write sql_usable fresh st candidates in
  (fst r = Err RatarmountError /\ connection (snd r) = None /\ forall p, In p candidates -> ~ possible p) \/
  (exists before p after, candidates = before ++ p :: after /\ (forall q, In q before -> ~ possible q) /\ possible p /\
     fst r = Ok tt /\ connection (snd r) = Some fresh /\
     (p = $":memory:" -> opened (snd r) = Memory) /\ (p <> $":memory:" -> opened (snd r) = OnDisk p /\ disk (snd r) p = Some fresh)).
Proof.
  intros C size write sql_usable fresh st cs R M Hc N. cbv zeta. unfold open_writable. rewrite R, M. pose proof (find_first size write sql_usable cs (disk st)) as F. destruct cs as [|q qs]; [congruence|]. remember (q :: qs) as cs eqn:E. clear E N q qs.
  destruct (find_usable size write sql_usable (disk st) cs) as [[p|] fs]; cbn [fst snd] in *.
  - right. destruct F as (before & after & -> & F1 & F2 & F3). exists before, p, after. split; [reflexivity|]. split; [exact F1|]. split; [exact F2|]. destruct (str_eqb_spec p memory) as [->|Np]; cbn.
    + repeat split; congruence.
    + split; [reflexivity|]. split; [reflexivity|]. split; [intros ->; now destruct Np|]. intros _. split; [reflexivity|apply put_same].
  - left. unfold is_loaded. cbn. rewrite Hc. auto.
Qed.
Print Assumptions C57_first_possible.
Theorem C57_kept :
  forall {C} (size : C -> Z) write sql_usable fresh (st : state (C := C)) candidates p c,
  disk st p = Some c -> 0 < size c -> disk (snd (open_writable size write sql_usable fresh st candidates)) p = Some c.
Proof.
  intros C size write sql_usable fresh st cs p c E S. unfold open_writable. destruct (read_only st); [exact E|]. pose proof (find_kept size write sql_usable cs (disk st) p c E S) as F. pose proof (find_first size write sql_usable cs (disk st)) as FF.
  set (st' := match cs with [] => _ | _ => _ end). enough (disk st' p = Some c) by (destruct (is_loaded st'); assumption). subst st'.
  destruct cs as [|q qs]; [exact E|]. destruct (prefer_memory st); [exact E|]. destruct (find_usable _ _ _ _ _) as [[q'|] fs]; cbn [snd fst] in *; [|exact F].
  destruct (str_eqb q' memory); cbn [disk]; [exact F|]. rewrite put_other; [exact F|]. intros ->. destruct FF as (b & a & _ & _ & _ & X). congruence.
Qed.
Print Assumptions C57_kept.
(** Preferring memory, as for small archives, creates no file. *)
Theorem C57_memory :
  forall {C} (size : C -> Z) write sql_usable fresh (st : state (C := C)) candidates,
  read_only st = false -> prefer_memory st = true ->
  let r := open_writable size write sql_usable fresh st candidates in
  fst r = Ok tt /\ opened (snd r) = Memory /\ connection (snd r) = Some fresh /\ forall p, disk (snd r) p = disk st p.
Proof. intros C size write sql_usable fresh st cs R M. cbv zeta. unfold open_writable. rewrite R, M. destruct cs; cbn; repeat split. Qed.
Print Assumptions C57_memory.
Example C57_example :
  let write := fun p => if starts_with $"/ro" p then @Denied nat else Written in
  let r := open_writable Z.of_nat write (fun _ => true) 1%nat ex_state [$"/a"; $"/ro/x"; $"/c"; $"/d"] in
  fst r = Ok tt /\ opened (snd r) = OnDisk $"/c" /\ disk (snd r) $"/a" = Some 3%nat /\
  fst (open_writable Z.of_nat write (fun _ => true) 1%nat ex_state [$"/a"; $"/ro/x"]) = Err RatarmountError.
Proof. cbv zeta. repeat split; vm_compute; reflexivity. Qed.
(** Even memory needs a writable current folder: the path ":memory:" is tried out as a file. *)
Theorem C57_memory_refuted :
  exists write : str -> write_result nat,
  fst (open_writable Z.of_nat write (fun _ => true) 1%nat (mkState (fun _ => None) None Nowhere None false false) [$"/ro/x.tar.index.sqlite"; $":memory:"]) = Err RatarmountError.
Proof. exists (fun _ => Denied). reflexivity. Qed.
Print Assumptions C57_memory_refuted.

(** C58: an index that was created because none was accepted is found again: the next time, the finished file is loaded, whichever
    of the candidates it was created at, if the candidates before it are tried in any order or number. *)
Theorem C58_found_again :
  forall {C} (size : C -> Z) removable (undo : C -> undone C) fetch verdict write sql_usable fresh
         (st st1 st2 : state (C := C)) candidates c finished,
  connection st = None -> temporary st = None -> opened st = Nowhere -> read_only st = false -> prefer_memory st = false ->
  (forall p, In p candidates -> ~ url p) ->
  (forall p d, In p candidates -> disk st p = Some d -> undo d = Plain) ->
  (forall p d, write p = Cut d -> undo d = Plain /\ exists e, verdict d = Err e /\ e <> MismatchingIndexError) ->
  open_existing removable undo fetch verdict st candidates = (Ok tt, st1) -> connection st1 = None ->
  open_writable size write sql_usable fresh st1 candidates = (Ok tt, st2) -> opened st2 = OnDisk c ->
  undo finished = Plain -> verdict finished = Ok tt ->
  forall (st3 : state (C := C)), connection st3 = None -> temporary st3 = None ->
  disk st3 c = Some finished -> (forall p, p <> c -> disk st3 p = disk st2 p) ->
  exists before after, candidates = before ++ c :: after /\
  forall before' after', incl before' before ->
  exists st4, open_existing removable undo fetch verdict st3 (before' ++ c :: after') = (Ok tt, st4) /\ connection st4 = Some finished.
Proof.
  intros C size removable undo fetch verdict write sql_usable fresh st st1 st2 cs c finished Hc Ht Ho R M U P Hw E1 C1 E2 O2 Pf Vf st3 C3 T3 D3 K3.
  pose proof (existing_none removable undo fetch verdict cs st Hc Ht U P st1 E1 C1) as F.
  destruct (existing_skip removable undo fetch verdict cs st [] Hc Ht U F) as (st1' & E1' & _ & T1 & R1 & M1 & W). rewrite app_nil_r, E1 in E1'. cbn in E1'. injection E1' as <-.
  assert (opened st1 = Nowhere \/ True) as _ by now right.
  assert (exists st1x, disk st1x = disk st1 /\ connection st1x = None /\ read_only st1x = false /\ prefer_memory st1x = false /\ opened st1x = Nowhere /\
            exists st2x, open_writable size write sql_usable fresh st1x cs = (Ok tt, st2x) /\ disk st2x = disk st2 /\ opened st2x = OnDisk c) as (st1x & Dx & Cx & Rx & Mx & Ox & st2x & Ex & D2x & O2x).
  { exists (mkState (disk st1) None Nowhere (temporary st1) false false). repeat split. unfold open_writable in E2 |- *. cbn [read_only prefer_memory disk temporary]. rewrite R1, R, M1, M in E2.
    destruct cs as [|q qs]; [cbn in E2; injection E2 as <-; discriminate|]. destruct (find_usable size write sql_usable (disk st1) (q :: qs)) as [[p|] fs].
    - destruct (str_eqb p memory); cbn in E2 |- *; injection E2 as <-; cbn in O2 |- *; [discriminate|]. eexists. split; [reflexivity|]. cbn. split; [reflexivity|exact O2].
    - unfold is_loaded in E2. cbn in E2. rewrite C1 in E2. discriminate. }
  destruct (create_found size write sql_usable fresh st1x cs st2x c Rx Mx Cx Ex Ox O2x) as (before & after & Ec & F1 & F2 & D2 & _ & K2). exists before, after. split; [exact Ec|].
  intros before' after' Hi.
  assert (~ In c before) as Nc by (intros X; exact (F1 c X F2)).
  assert (forall p, In p before -> In p cs) as Ib by (intros p Ip; rewrite Ec; apply in_or_app; now left).
  assert (forall p, In p before' -> unfit undo verdict (disk st3) p) as F3.
  { intros p Ip. apply Hi in Ip. assert (p <> c) as Np by (intros ->; contradiction). unfold unfit. rewrite (K3 p Np), <- D2x, (K2 p Np), Dx. destruct (find_cases size write sql_usable cs (disk st1) p) as [E|[E|(x & Hx & E)]]; rewrite E.
    - rewrite (proj2 (W p) (Ib p Ip)). destruct (removable p && negb (read_only st)); [now left|]. apply F, Ib, Ip.
    - now left.
    - right. destruct (Hw p x Hx) as (Px & e & Vx & Mx'). exists x, e. auto. }
  destruct (existing_skip removable undo fetch verdict before' st3 (c :: after') C3 T3) as (st4 & E4 & C4 & T4 & R4 & _ & W4); [intros p Ip; apply U, Ib, Hi, Ip|exact F3|].
  assert (disk st4 c = Some finished) as D4. { rewrite (proj1 (W4 c)); [exact D3|]. intros X. apply Nc, Hi, X. }
  destruct (existing_good removable undo fetch verdict st4 c after' finished finished C4 T4) as [G _]; [apply F2|exact D4|now left|]. destruct (G Vf) as (st5 & E5 & C5 & _). exists st5. rewrite E4, E5. auto.
Qed.
Print Assumptions C58_found_again.

(** an archive with an outdated index that cannot be removed at the first candidate and a disk that is full at the second *)
Definition ex_write (p : str) : write_result nat := if str_eqb p $"/c" then Cut 1%nat else Written.
Example C58_example :
  let cs := [$"/a"; $"/c"; $"/d"] in
  let r1 := open_existing (fun _ => false) (fun _ => Plain) (fun _ => Err RuntimeError) ex_verdict ex_state cs in
  let r2 := open_writable Z.of_nat ex_write (fun _ => true) 7%nat (snd r1) cs in
  fst r1 = Ok tt /\ connection (snd r1) = None /\ fst r2 = Ok tt /\ opened (snd r2) = OnDisk $"/d" /\
  disk (snd r2) $"/a" = Some 3%nat /\ disk (snd r2) $"/c" = Some 1%nat /\
  (forall p d, ex_write p = Cut d -> @Plain nat = Plain /\ exists e, ex_verdict d = Err e /\ e <> MismatchingIndexError).
Proof.
  cbv zeta. do 6 (split; [vm_compute; reflexivity|]). intros p d E. unfold ex_write in E. destruct (str_eqb p $"/c"); [|discriminate]. injection E as <-. split; [reflexivity|]. exists RatarmountError. split; [reflexivity|discriminate].
Qed.
