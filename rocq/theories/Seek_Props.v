(** Properties C101 and C102: seek points of compressed archives in the index. *)
From Coq Require Import List ZArith Bool Lia.
From Verif Require Import PyBase Blob_Model Blob_Props Seek_Model Seek_Spec Seek_Proofs.
Import ListNotations.

(** C101, the next mount: whatever the index file holds, if a decoder accepts what it exports itself, then after one mount the next mount
    with that decoder imports seek points, without changing the file: what the first mount imported, or else all it exported. *)
Theorem C101_next_mount_loads :
  forall (A : Type) (blob_size : Z) (zran zran' : bool) (c : compression) (d : decoder A) (s : db A),
  exported_format c -> d_methods d = true -> d_fails d = None -> d_accepts d (concat (d_exports d)) = true ->
  let '(qs, first) := synchronize blob_size zran false c d s in
  exists data, synchronize blob_size zran' false c d (exec_all s qs) = ([], Loaded data) /\
    (first = Loaded data \/ first = Built /\ data = concat (d_exports d)).
Proof.
  intros A bs zran zran' c d s E M F Ac.
  assert (S : forall z (s : db A), synchronize bs z false c d s =
    match load_gzip_index s d with Some data => ([], Loaded data) | None => store_gzip_index bs z d end).
  { intros z s0. unfold synchronize. rewrite M. destruct E as [->| ->]; reflexivity. }
  rewrite S. destruct (load_gzip_index s d) as [data|] eqn:L.
  - exists data. cbn [exec_all fold_left]. rewrite S, L. auto.
  - generalize (gzip_built bs zran d s F) (next_gzip bs zran d s M F Ac L). destruct (store_gzip_index bs zran d) as (qs, o). cbn [fst].
    intros (-> & _) N. exists (concat (d_exports d)). rewrite S, N. auto.
Qed.
Print Assumptions C101_next_mount_loads.

(** C101, complete data: in every history of mounts with any decoders and of dropped data, what a mount imports is all that one earlier
    mount has exported, and the data was not dropped since then.  Missing for the full statement: processes that die, and exports that
    fail in other ways; it is false for those. *)
Theorem C101_loads_are_complete_partial :
  forall (A : Type) (blob_size : Z) (es : list (event A)) (n : nat) (data : list A),
  Forall uninterrupted es -> nth_error (outcomes blob_size no_tables es) n = Some (Loaded data) ->
  exists m zran memory c d cut, before es m n /\ nth_error es m = Some (Mount zran memory c d cut) /\ exported_format c /\
    nth_error (outcomes blob_size no_tables es) m = Some Built /\ d_fails d = None /\ data = concat (d_exports d).
Proof.
  intros A bs es n data U H. assert (Ln := nth_outcome_event bs es n _ H). apply outcomes_nth in H. destruct H as (e & E & H).
  destruct e as [zran memory c d cut|cut]; [|discriminate]. rewrite snd_use in H. symmetry in H.
  apply loaded_in in H. destruct H as (_ & t & rows & K & Hs & ->).
  destruct (wholes bs es U n t rows Ln Hs) as (m & z & me & c' & d' & cut' & B & Em & Hb & Hf & (Ft & ->)).
  assert (X : exported_format c') by (unfold fits in Ft; now rewrite K in Ft).
  exists m, z, me, c', d', cut'. rewrite all_blobs by assumption. auto 10.
Qed.
Print Assumptions C101_loads_are_complete_partial.

(** C101, any history: even if processes die at any point or exports fail, what a mount imports is a part, from the start on, of what one
    single earlier mount exported; it never mixes the data of two mounts. *)
Theorem C101_loads_are_parts :
  forall (A : Type) (blob_size : Z) (es : list (event A)) (n : nat) (data : list A),
  nth_error (outcomes blob_size no_tables es) n = Some (Loaded data) ->
  exists m zran memory c d cut rest, before es m n /\ nth_error es m = Some (Mount zran memory c d cut) /\ exported_format c /\
    concat (d_exports d) = data ++ rest.
Proof.
  intros A bs es n data H. assert (Ln := nth_outcome_event bs es n _ H). apply outcomes_nth in H. destruct H as (e & E & H).
  destruct e as [zran memory c d cut|cut]; [|discriminate]. rewrite snd_use in H. symmetry in H.
  apply loaded_in in H. destruct H as (_ & t & rows & K & Hs & ->).
  destruct (parts bs es n t rows Ln Hs) as (m & z & me & c' & d' & cut' & B & Em & (Ft & j & ->)).
  assert (X : exported_format c') by (unfold fits in Ft; now rewrite K in Ft).
  exists m, z, me, c', d', cut', (concat (map blob_of (skipn j (all_rows bs t d')))). repeat split; try apply B; try assumption.
  rewrite <- (all_blobs bs t d' K). rewrite <- (firstn_skipn j (all_rows bs t d')) at 1. now rewrite map_app, concat_app.
Qed.
Print Assumptions C101_loads_are_parts.

(** indexed_gzip and two versions of rapidgzip.  Data for indexed_gzip starts with 1, data of gztool with 2. *)
Definition starts (l : list nat) (data : list nat) : bool := existsb (Nat.eqb (hd 0 data)) l.
Definition indexed_gzip (e : list (list nat)) : decoder nat := mkDecoder false false true (starts [1]) e None [] (fun _ => false).
Definition rapidgzip (e : list (list nat)) : decoder nat := mkDecoder true true true (starts [1; 2]) e None [] (fun _ => false).
Definition history : list (event nat) :=
  [Mount true false Gzip (indexed_gzip [[1; 5]]) None; Mount true false Gzip (rapidgzip [[2]]) None; Clear None;
   Mount true false Gzip (rapidgzip [[2; 6]; [7; 8]]) None; Mount true false Gzip (indexed_gzip [[1; 5]; [6; 7; 8]]) None;
   Mount true false Gzip (rapidgzip [[2]]) None; Mount false false Gzip (indexed_gzip [[1]]) None].
Example C101_history_example :
  Forall uninterrupted history /\
  outcomes 3 no_tables history = [Built; Loaded [1; 5]; Skipped; Built; Built; Loaded [2; 6; 7; 8]; Loaded [1; 5; 6; 7; 8]].
Proof. split; [repeat constructor|reflexivity]. Qed.
Example C101_next_example :
  let d := indexed_gzip [[1; 2]; [3]] in d_methods d = true /\ d_fails d = None /\ d_accepts d (concat (d_exports d)) = true.
Proof. repeat split. Qed.

(** C101 is false for a process that dies while it stores the data: a part of it is imported by the next mount if the decoder accepts it,
    here because it has a valid start. *)
Theorem C101_crash_refuted :
  let d := indexed_gzip [[1; 5]; [6; 7]] in
  outcomes 2 no_tables [Mount true false Gzip d (Some 3); Mount true false Gzip d None; Mount true false Gzip d None]
    = [Built; Loaded [1; 5]; Loaded [1; 5]] /\ concat (d_exports d) = [1; 5; 6; 7].
Proof. split; reflexivity. Qed.
Print Assumptions C101_crash_refuted.

(** It is also false if exporting fails with an exception that is not expected there, and, without indexed_gzip, for all of them: the
    table is not dropped.  The mount fails, and the next one imports the part that was written. *)
Theorem C101_failed_export_refuted :
  forall zran e, zran = false \/ ~ In e [RuntimeError; ValueError; RatarmountError] ->
  let fails := mkDecoder true true true (starts [1; 2]) [[2; 5]; [6]] (Some e) [] (fun _ => false) in
  let works := rapidgzip [[2; 5]; [6]; [7; 8]] in
  exists x, outcomes 9 no_tables [Mount zran false Gzip fails None; Mount zran false Gzip works None] = [Raised x; Loaded [2; 5; 6]] /\
    concat (d_exports works) = [2; 5; 6; 7; 8].
Proof.
  intros zran e H. cbv zeta. destruct zran.
  - destruct H as [H|H]; [discriminate|]. exists e. destruct e; try (split; reflexivity); exfalso; apply H; cbn; auto.
  - exists AttributeError. split; reflexivity.
Qed.
Print Assumptions C101_failed_export_refuted.

(** C101: what rapidgzip stores in the format of gztool is not seen by indexed_gzip, and does not change what it does, wherever the process
    storing it dies; and once rapidgzip imports its own data, it still does after any mount with indexed_gzip. *)
Theorem C101_decoders_keep_apart :
  forall (A : Type) (blob_size : Z) (zran zran' : bool) (k : nat) (c c' : compression) (rapid indexed : decoder A) (s : db A),
  d_rapid rapid = true -> d_formats rapid = true -> d_rapid indexed = false -> exported_format c -> exported_format c' ->
  let after d := exec_all s (firstn k (fst (synchronize blob_size zran false c d s))) in
  synchronize blob_size zran' false c' indexed (after rapid) = synchronize blob_size zran' false c' indexed s /\
  (forall rows, s GzToolIndex = Some rows -> d_accepts rapid (concat (map blob_of rows)) = true -> d_methods rapid = true ->
     synchronize blob_size zran' false c' rapid s = ([], Loaded (concat (map blob_of rows))) /\
     synchronize blob_size zran' false c' rapid (after indexed) = ([], Loaded (concat (map blob_of rows)))).
Proof.
  intros A bs zran zran' k c c' rapid indexed s R F I E E'. cbv zeta.
  assert (S : forall z c (d : decoder A) (s : db A), exported_format c -> synchronize bs z false c d s =
    if d_methods d then match load_gzip_index s d with Some data => ([], Loaded data) | None => store_gzip_index bs z d end
    else ([], Raised RuntimeError)).
  { intros z c0 d s0 X. unfold synchronize. destruct X as [->| ->]; reflexivity. }
  assert (Only : forall (d : decoder A) t (s : db A), store_gzip_index bs zran d = (fst (store_gzip_index bs zran d), snd (store_gzip_index bs zran d)) ->
     (t = if d_rapid d && d_formats d then GzToolIndex else GzipIndexes) ->
     forall u, (if d_rapid d && d_formats d then u <> GzToolIndex else u = GzToolIndex) ->
     exec_all s (firstn k (fst (store_gzip_index bs zran d))) u = s u).
  { intros d t s0 _ Ht u Hu.
    assert (Q : Forall (fun q : stmt A => forall s, exec s q u = s u) (fst (store_gzip_index bs zran d))).
    { unfold store_gzip_index. rewrite <- Ht.
      assert (Nu : table_eqb u t = false) by (subst t; destruct (d_rapid d && d_formats d); destruct u; try reflexivity; try congruence).
      assert (D : forall s : db A, exec s (Drop t) u = s u) by (intros s1; cbn; unfold set_table; now rewrite Nu).
      assert (C : forall s : db A, exec s (Create t) u = s u) by (intros s1; cbn; unfold set_table; now rewrite Nu).
      assert (Is : forall rows, Forall (fun q : stmt A => forall s, exec s q u = s u) (map (Insert t) rows)).
      { intros rows. apply Forall_forall. intros q Hq. apply in_map_iff in Hq. destruct Hq as (r & <- & _). intros s1.
        cbn [exec]. destruct (s1 t); [unfold set_table; now rewrite Nu|reflexivity]. }
      assert (W : forall rows, Forall (fun q : stmt A => forall s, exec s q u = s u) ([Drop t; Create t] ++ map (Insert t) rows)).
      { intros rows. apply Forall_app. split; [constructor; [exact D|constructor; [exact C|constructor]]|apply Is]. }
      destruct (d_fails d) as [e|].
      - destruct (negb zran); [apply W|]. destruct (handled e); [|apply W]. cbn [fst]. apply Forall_app.
        split; [apply W|constructor; [exact D|constructor]].
      - cbn [fst]. apply Forall_app. split; [apply W|]. apply Forall_app. split; [|repeat constructor].
        destruct (d_rapid d && d_formats d).
        + subst t. cbn [table_eqb]. rewrite andb_false_r. constructor.
        + subst u. destruct (_ && _); [|constructor]. repeat constructor. }
    apply Forall_firstn with (k := k) in Q. revert s0. induction Q as [|q qs Hq _ IH]; intros s0; [reflexivity|].
    change (exec_all s0 (q :: qs)) with (exec_all (exec s0 q) qs). rewrite IH. apply Hq. }
  split.
  - assert (L : load_gzip_index (exec_all s (firstn k (fst (synchronize bs zran false c rapid s)))) indexed = load_gzip_index s indexed).
    { rewrite S by assumption. destruct (d_methods rapid); [|cbn; now rewrite firstn_nil].
      destruct (load_gzip_index s rapid); [cbn; now rewrite firstn_nil|].
      assert (O : forall u, u <> GzToolIndex -> exec_all s (firstn k (fst (store_gzip_index bs zran rapid))) u = s u).
      { intros u Hu. apply (Only rapid GzToolIndex); [apply surjective_pairing|now rewrite R, F|now rewrite R, F]. }
      unfold load_gzip_index, index_tables. rewrite I, !andb_false_r. cbn [app filter].
      rewrite !O by discriminate. destruct (is_some (s GzipIndexes)), (is_some (s GzipIndex)); cbn [load_from]; rewrite ?O by discriminate; reflexivity. }
    rewrite (S zran' c' indexed s E'), (S zran' c' indexed _ E'). now rewrite L.
  - intros rows Hs Ha Hm.
    assert (L : forall s', s' GzToolIndex = Some rows -> load_gzip_index s' rapid = Some (concat (map blob_of rows))).
    { intros s' H. unfold load_gzip_index, index_tables. rewrite R, H. cbn [is_some andb app load_from]. now rewrite H, Ha. }
    rewrite !(S zran') by assumption. rewrite Hm, (L s Hs). split; [reflexivity|]. rewrite L; [reflexivity|].
    rewrite S by assumption. destruct (d_methods indexed); [|cbn; now rewrite firstn_nil].
    destruct (load_gzip_index s indexed); [cbn; now rewrite firstn_nil|].
    rewrite (Only indexed GzipIndexes); [assumption|apply surjective_pairing|now rewrite I|now rewrite I].
Qed.
Print Assumptions C101_decoders_keep_apart.

(** C102, the next mount: after one mount of a bzip2 or Zstandard archive, the next one gives the decoder block offsets without changing the
    file: those the first mount gave it, or else all that it has found. *)
Theorem C102_next_mount_sets :
  forall (A : Type) (blob_size : Z) (zran zran' : bool) (c : compression) (d : decoder A) (s : db A),
  block_format c -> d_methods d = true -> d_takes d (d_blocks d) = true ->
  let '(qs, first) := synchronize blob_size zran false c d s in
  exists blocks, synchronize blob_size zran' false c d (exec_all s qs) = ([], LoadedBlocks blocks) /\
    (first = LoadedBlocks blocks \/ first = Built /\ blocks = d_blocks d).
Proof.
  intros A bs zran zran' c d s [->| ->] M T; unfold synchronize.
  - generalize (next_blocks bs Bzip2Blocks Bzip2 d s ltac:(discriminate) eq_refl M T).
    destruct (synchronize_blocks Bzip2Blocks d s) as (qs, o). intros (l & E & [(H & _)|H]); exists l; auto.
  - generalize (next_blocks bs ZstdBlocks Zstandard d s ltac:(discriminate) eq_refl M T).
    destruct (synchronize_blocks ZstdBlocks d s) as (qs, o). intros (l & E & [(H & _)|H]); exists l; auto.
Qed.
Print Assumptions C102_next_mount_sets.

(** C102, complete data: in every history, the block offsets given to a decoder are all those found by one earlier mount for the same
    format, and they were not dropped since then.  Missing for the full statement: processes that die; it is false for those. *)
Theorem C102_blocks_are_complete_partial :
  forall (A : Type) (blob_size : Z) (es : list (event A)) (n : nat) (blocks : list (Z * Z)),
  Forall uninterrupted es -> nth_error (outcomes blob_size no_tables es) n = Some (LoadedBlocks blocks) ->
  exists m zran memory c d cut zran' memory' d' cut', before es m n /\
    nth_error es n = Some (Mount zran' memory' c d' cut') /\ nth_error es m = Some (Mount zran memory c d cut) /\
    nth_error (outcomes blob_size no_tables es) m = Some Built /\ blocks = d_blocks d.
Proof.
  intros A bs es n blocks U H. assert (Ln := nth_outcome_event bs es n _ H). apply outcomes_nth in H. destruct H as (e & E & H).
  destruct e as [zran memory c d cut|cut]; [|discriminate]. rewrite snd_use in H. symmetry in H.
  apply loaded_blocks_in in H. destruct H as (t & rows & K & Ft & Hs & ->).
  destruct (wholes bs es U n t rows Ln Hs) as (m & z & me & c' & d' & cut' & B & Em & Hb & _ & (Ft' & ->)).
  assert (c' = c) as -> by (unfold fits in *; destruct t; cbn in *; congruence).
  exists m, z, me, c, d', cut', zran, memory, d, cut. rewrite all_pairs by assumption. auto 10.
Qed.
Print Assumptions C102_blocks_are_complete_partial.

(** C102, any history: wherever processes die, the offsets are a part, from the start on, of those found by one single earlier mount for the
    same format. *)
Theorem C102_blocks_are_parts :
  forall (A : Type) (blob_size : Z) (es : list (event A)) (n : nat) (blocks : list (Z * Z)),
  nth_error (outcomes blob_size no_tables es) n = Some (LoadedBlocks blocks) ->
  exists m zran memory c d cut zran' memory' d' cut' rest, before es m n /\
    nth_error es n = Some (Mount zran' memory' c d' cut') /\ nth_error es m = Some (Mount zran memory c d cut) /\
    d_blocks d = blocks ++ rest.
Proof.
  intros A bs es n blocks H. assert (Ln := nth_outcome_event bs es n _ H). apply outcomes_nth in H. destruct H as (e & E & H).
  destruct e as [zran memory c d cut|cut]; [|discriminate]. rewrite snd_use in H. symmetry in H.
  apply loaded_blocks_in in H. destruct H as (t & rows & K & Ft & Hs & ->).
  destruct (parts bs es n t rows Ln Hs) as (m & z & me & c' & d' & cut' & B & Em & (Ft' & j & ->)).
  assert (c' = c) as -> by (unfold fits in *; destruct t; cbn in *; congruence).
  exists m, z, me, c, d', cut', zran, memory, d, cut, (map pair_of (skipn j (all_rows bs t d'))). repeat split; try apply B; try assumption.
  rewrite <- (all_pairs bs t d' K). rewrite <- (firstn_skipn j (all_rows bs t d')) at 1. now rewrite map_app.
Qed.
Print Assumptions C102_blocks_are_parts.

Definition with_blocks (l : list (Z * Z)) : decoder nat := mkDecoder false false true (fun _ => false) [] None l (fun m => Nat.leb 2 (length m)).
Definition four : list (Z * Z) := [(32, 0); (5000, 900000); (9800, 1800000); (12000, 2100000)]%Z.
Example C102_example :
  let es := [Mount true false Bzip2 (with_blocks four) None; Mount true false Zstandard (with_blocks [(0, 0); (7, 9)]%Z) None;
             Mount true false Bzip2 (with_blocks []) None; Mount false false Zstandard (with_blocks []) None; Clear None;
             Mount true false Bzip2 (with_blocks four) None] in
  Forall uninterrupted es /\
  outcomes 9 no_tables es = [Built; Built; LoadedBlocks four; LoadedBlocks [(0, 0); (7, 9)]%Z; Skipped; Built].
Proof. cbv zeta. split; [|reflexivity]. repeat (constructor; [cbn; auto|]). constructor. Qed.

(** C102 is false for a process that dies while it stores the offsets: the blocks after that point are unknown to all later mounts. *)
Theorem C102_crash_refuted :
  let d := with_blocks four in
  d_takes d (firstn 2 four) = true /\
  outcomes 9 no_tables [Mount true false Bzip2 d (Some 3); Mount true false Bzip2 d None; Mount true false Bzip2 d None]
    = [Built; LoadedBlocks (firstn 2 four); LoadedBlocks (firstn 2 four)].
Proof. split; reflexivity. Qed.
Print Assumptions C102_crash_refuted.

(** C101 and C102: a mount for one format, wherever the process dies, does not change what a mount for another one does. *)
Theorem C102_formats_keep_apart :
  forall (A : Type) (blob_size : Z) (zran zran' : bool) (k : nat) (c c' : compression) (d d' : decoder A) (s : db A),
  c <> c' -> ~ (exported_format c /\ exported_format c') ->
  let s' := exec_all s (firstn k (fst (synchronize blob_size zran false c d s))) in
  synchronize blob_size zran' false c' d' s' = synchronize blob_size zran' false c' d' s.
Proof.
  intros A bs zran zran' k c c' d d' s Hc Hx. cbv zeta.
  set (qs := fst (synchronize bs zran false c d s)).
  set (mine := fun t => match c with Gzip | Zlib => 2 | Bzip2 => 0 | Zstandard => 1 | _ => 3 end = kind t).
  assert (Q : Forall (fun q : stmt A => forall u, ~ mine u -> forall s, exec s q u = s u) qs).
  { assert (St : forall t, mine t -> forall u, ~ mine u -> table_eqb u t = false).
    { intros t Ht u Hu. destruct (table_eqb_spec u t) as [->|]; [contradiction|reflexivity]. }
    assert (D : forall t, mine t -> forall u, ~ mine u -> forall s : db A, exec s (Drop t) u = s u)
      by (intros t Ht u Hu s1; cbn; unfold set_table; now rewrite (St t Ht u Hu)).
    assert (C : forall t, mine t -> forall u, ~ mine u -> forall s : db A, exec s (Create t) u = s u)
      by (intros t Ht u Hu s1; cbn; unfold set_table; now rewrite (St t Ht u Hu)).
    assert (Is : forall t, mine t -> forall rows, Forall (fun q : stmt A => forall u, ~ mine u -> forall s, exec s q u = s u) (map (Insert t) rows)).
    { intros t Ht rows. apply Forall_forall. intros q Hq. apply in_map_iff in Hq. destruct Hq as (r & <- & _). intros u Hu s1.
      cbn [exec]. destruct (s1 t); [unfold set_table; now rewrite (St t Ht u Hu)|reflexivity]. }
    assert (B : forall t, mine t -> Forall (fun q : stmt A => forall u, ~ mine u -> forall s, exec s q u = s u) (fst (synchronize_blocks t d s))).
    { intros t Ht. unfold synchronize_blocks. destruct (negb (d_methods d)); [constructor|].
      assert (X : Forall (fun q : stmt A => forall u, ~ mine u -> forall s, exec s q u = s u)
         ((if is_some (s t) then [Drop t] else []) ++ [Create t] ++ map (fun '(b, o) => Insert t (Offsets b o)) (d_blocks d) ++ [Commit])).
      { rewrite insert_pairs. apply Forall_app. split; [destruct (is_some (s t)); [constructor; [now apply D|constructor]|constructor]|].
        constructor; [now apply C|]. apply Forall_app. split; [now apply Is|]. constructor; [reflexivity|constructor]. }
      destruct (s t); [|exact X]. cbv zeta. destruct (d_takes d _); [constructor|exact X]. }
    assert (G : exported_format c -> Forall (fun q : stmt A => forall u, ~ mine u -> forall s, exec s q u = s u) (fst (store_gzip_index bs zran d))).
    { intros X. assert (M : forall t, kind t = 2 -> mine t) by (intros t Ht; unfold mine; destruct X as [->| ->]; auto).
      unfold store_gzip_index. set (t := if d_rapid d && d_formats d then GzToolIndex else GzipIndexes).
      assert (Mt : mine t) by (apply M; unfold t; destruct (_ && _); reflexivity). clearbody t.
      assert (W : forall rows, Forall (fun q : stmt A => forall u, ~ mine u -> forall s, exec s q u = s u) ([Drop t; Create t] ++ map (Insert t) rows)).
      { intros rows. constructor; [now apply D|constructor; [now apply C|now apply Is]]. }
      destruct (d_fails d) as [e|].
      - destruct (negb zran); [apply W|]. destruct (handled e); [|apply W]. cbn [fst]. apply Forall_app.
        split; [apply W|constructor; [now apply D|constructor]].
      - cbn [fst]. apply Forall_app. split; [apply W|]. apply Forall_app. split; [|constructor; [reflexivity|constructor]].
        destruct (_ && _); [|constructor]. constructor; [apply D, M; reflexivity|]. constructor; [|constructor].
        intros u Hu s1. cbn [exec]. unfold set_table. destruct u; try reflexivity; exfalso; apply Hu, M; reflexivity. }
    unfold qs, synchronize. destruct c; try constructor; try (apply B; reflexivity).
    - destruct (d_methods d); [|constructor]. destruct (load_gzip_index s d); [constructor|apply G; now left].
    - destruct (d_methods d); [|constructor]. destruct (load_gzip_index s d); [constructor|apply G; now right]. }
  assert (S : forall u, ~ mine u -> exec_all s (firstn k qs) u = s u).
  { apply Forall_firstn with (k := k) in Q. intros u Hu. clearbody qs. clear - Q Hu. revert s. induction Q as [|q qs0 Hq _ IH]; intros s; [reflexivity|].
    change (exec_all s (q :: qs0)) with (exec_all (exec s q) qs0). rewrite IH. now apply Hq. }
  clearbody qs. clear Q. generalize dependent (exec_all s (firstn k qs)). intros s' S. unfold synchronize.
  assert (B : forall t, s' t = s t -> synchronize_blocks t d' s' = synchronize_blocks t d' s)
    by (intros t H; unfold synchronize_blocks; now rewrite H).
  assert (G : (forall t, kind t = 2 -> s' t = s t) -> load_gzip_index s' d' = load_gzip_index s d') by (intros H; now apply load_gzip_ext).
  destruct c'; try reflexivity.
  - rewrite G; [reflexivity|]. intros t Ht. apply S. unfold mine. rewrite Ht. destruct c; try discriminate; [congruence|].
    exfalso. apply Hx. split; [now right|now left].
  - rewrite G; [reflexivity|]. intros t Ht. apply S. unfold mine. rewrite Ht. destruct c; try discriminate; [|congruence].
    exfalso. apply Hx. split; [now left|now right].
  - apply B, S. unfold mine. destruct c; try discriminate. congruence.
  - apply B, S. unfold mine. destruct c; try discriminate. congruence.
Qed.
Print Assumptions C102_formats_keep_apart.

Example C102_apart_example : Bzip2 <> Zstandard /\ ~ (exported_format Bzip2 /\ exported_format Zstandard).
Proof. split; [discriminate|intros ([H|H] & _); discriminate]. Qed.
