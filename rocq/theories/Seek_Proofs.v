From Coq Require Import List ZArith Bool Lia.
From Verif Require Import PyBase Blob_Model Blob_Props Seek_Model Seek_Spec.
Import ListNotations.

Section Proofs.
  Context {A : Type}.
  Variable bs : Z.

  Lemma table_eqb_spec (a b : table) : reflect (a = b) (table_eqb a b).
  Proof. destruct a, b; constructor; congruence. Qed.
  Lemma table_eqb_refl a : table_eqb a a = true.
  Proof. now destruct a. Qed.

  Lemma exec_all_app (s : db A) p q : exec_all s (p ++ q) = exec_all (exec_all s p) q.
  Proof. apply fold_left_app. Qed.

  Lemma inserts (t : table) : forall (rows : list (row A)) (s : db A) old, s t = Some old ->
    forall u, exec_all s (map (Insert t) rows) u = if table_eqb u t then Some (old ++ rows) else s u.
  Proof.
    induction rows as [|r rows IH]; intros s old H u.
    - cbn. rewrite app_nil_r. destruct (table_eqb_spec u t) as [->|]; auto.
    - cbn [map]. change (exec_all s (Insert t r :: map (Insert t) rows)) with (exec_all (exec s (Insert t r)) (map (Insert t) rows)).
      cbn [exec]. rewrite H. rewrite (IH _ (old ++ [r])).
      + unfold set_table. rewrite <- app_assoc. cbn. destruct (table_eqb u t); reflexivity.
      + unfold set_table. now rewrite table_eqb_refl.
  Qed.

  Lemma written (t : table) (rows : list (row A)) (s : db A) u :
    exec_all s ([Drop t; Create t] ++ map (Insert t) rows) u = if table_eqb u t then Some rows else s u.
  Proof.
    rewrite exec_all_app. rewrite inserts with (old := []).
    - cbn. unfold set_table. destruct (table_eqb u t); reflexivity.
    - cbn. unfold set_table. now rewrite table_eqb_refl.
  Qed.

  (** Kinds of tables: the data of one kind can move to another table of the same kind. *)
  Definition kind (t : table) : nat := match t with Bzip2Blocks => 0 | ZstdBlocks => 1 | _ => 2 end.
  Definition fits (t : table) (c : compression) : Prop :=
    match kind t with 0 => c = Bzip2 | 1 => c = Zstandard | _ => exported_format c end.
  Definition all_rows (t : table) (d : decoder A) : list (row A) :=
    match kind t with
    | 2 => map Blob (w_table (snd (export bs (d_exports d))))
    | _ => map (fun '(b, o) => Offsets b o) (d_blocks d)
    end.

  Lemma kind_fits t u c : kind t = kind u -> fits t c -> fits u c.
  Proof. unfold fits. now intros ->. Qed.
  Lemma kind_rows t u d : kind t = kind u -> all_rows t d = all_rows u d.
  Proof. unfold all_rows. now intros ->. Qed.

  (** [s'] holds what [s] held and data satisfying [P]. *)
  Definition comes (P : table -> list (row A) -> Prop) (s s' : db A) : Prop :=
    forall u rows, s' u = Some rows -> (exists u', kind u' = kind u /\ s u' = Some rows) \/ P u rows.

  Lemma comes_refl P s : comes P s s.
  Proof. intros u rows H. left. eauto. Qed.

  Definition by_kind (P : table -> list (row A) -> Prop) : Prop := forall t u rows, kind t = kind u -> P t rows -> P u rows.

  Lemma comes_drop P s s' t : comes P s s' -> comes P s (exec s' (Drop t)).
  Proof. intros H u rows. cbn. unfold set_table. destruct (table_eqb u t); [discriminate|apply H]. Qed.
  Lemma comes_rename P s s' : by_kind P -> comes P s s' -> comes P s (exec s' RenameGzip).
  Proof.
    intros K H u rows. cbn. unfold set_table. destruct (table_eqb_spec u GzipIndexes) as [->|]; [discriminate|].
    destruct (table_eqb_spec u GzipIndex) as [->|]; [|apply H]. intros E.
    destruct (H _ _ E) as [(u' & Hk & Hu)|Hp]; [left; exists u'; auto|right; now apply (K GzipIndexes)].
  Qed.
  Lemma comes_commit P s s' : comes P s s' -> comes P s (exec s' Commit).
  Proof. auto. Qed.

  Lemma comes_written (P : table -> list (row A) -> Prop) s t rows : P t rows -> comes P s (exec_all s ([Drop t; Create t] ++ map (Insert t) rows)).
  Proof.
    intros H u rows' E. rewrite written in E. destruct (table_eqb_spec u t) as [->|]; [injection E as <-; auto|left; eauto].
  Qed.

  (** Tails after the inserts. *)
  Definition tail_stmt (q : stmt A) : Prop := match q with Drop _ | RenameGzip | Commit => True | _ => False end.
  Lemma comes_tail P s qs : by_kind P -> Forall tail_stmt qs -> forall s', comes P s s' -> comes P s (exec_all s' qs).
  Proof.
    intros K. induction 1 as [|q qs Hq _ IH]; intros s' H; [exact H|].
    change (exec_all s' (q :: qs)) with (exec_all (exec s' q) qs). apply IH.
    destruct q; try contradiction; [now apply comes_drop|now apply comes_rename|exact H].
  Qed.

  Lemma Forall_firstn {X} (P : X -> Prop) k l : Forall P l -> Forall P (firstn k l).
  Proof. rewrite !Forall_forall. intros H x Hx. apply H. rewrite <- (firstn_skipn k l). apply in_or_app. now left. Qed.

  Lemma comes_prefix (P : table -> list (row A) -> Prop) s t rows tail k : by_kind P -> Forall tail_stmt tail -> (forall j, P t (firstn j rows)) ->
    comes P s (exec_all s (firstn k ([Drop t; Create t] ++ map (Insert t) rows ++ tail))).
  Proof.
    intros K T H. destruct k as [|[|k]].
    - apply comes_refl.
    - cbn. apply (comes_drop P s s t), comes_refl.
    - change (firstn (S (S k)) ([Drop t; Create t] ++ map (Insert t) rows ++ tail))
        with ([Drop t; Create t] ++ firstn k (map (Insert t) rows ++ tail)).
      rewrite firstn_app, app_assoc, exec_all_app. apply comes_tail; [assumption|now apply Forall_firstn|].
      rewrite firstn_map. apply comes_written. apply H.
  Qed.

  Lemma comes_prefix_block (P : table -> list (row A) -> Prop) s t rows tail k : by_kind P -> Forall tail_stmt tail -> (forall j, P t (firstn j rows)) -> s t = None ->
    comes P s (exec_all s (firstn k ([Create t] ++ map (Insert t) rows ++ tail))).
  Proof.
    intros K T H N. destruct k as [|k]; [apply comes_refl|].
    change (firstn (S k) ([Create t] ++ map (Insert t) rows ++ tail)) with ([Create t] ++ firstn k (map (Insert t) rows ++ tail)).
    rewrite firstn_app, exec_all_app, firstn_map, exec_all_app. apply comes_tail; [assumption|now apply Forall_firstn|].
    intros u rows' E. rewrite inserts with (old := []) in E by (cbn; unfold set_table; now rewrite table_eqb_refl).
    destruct (table_eqb_spec u t) as [->|Hn]; [injection E as <-; right; apply H|].
    cbn in E. unfold set_table in E. destruct (table_eqb_spec u t); [contradiction|]. left. eauto.
  Qed.

  Lemma tail_gzip t (rows : list (row A)) :
    Forall tail_stmt ((if Nat.eqb (length rows) 1 && table_eqb t GzipIndexes then [Drop GzipIndex; RenameGzip] else []) ++ [Commit]).
  Proof. destruct (_ && _); repeat constructor. Qed.

  (** Any prefix of the statements of one mount. *)
  Definition part_of (c : compression) (d : decoder A) (t : table) (rows : list (row A)) : Prop :=
    fits t c /\ exists j, rows = firstn j (all_rows t d).
  Lemma part_of_kind c d : by_kind (part_of c d).
  Proof. intros t u rows K (F & j & E). split; [now apply (kind_fits t)|]. exists j. now rewrite <- (kind_rows t). Qed.

  Lemma insert_pairs t l : map (fun '(b, o) => Insert t (@Offsets A b o)) l = map (Insert t) (map (fun '(b, o) => Offsets b o) l).
  Proof. rewrite map_map. apply map_ext. now intros (b, o). Qed.

  Lemma comes_blocks (P : table -> list (row A) -> Prop) t d s k : by_kind P -> kind t <> 2 -> (forall j, P t (firstn j (all_rows t d))) ->
    comes P s (exec_all s (firstn k (fst (synchronize_blocks t d s)))).
  Proof.
    intros K Hk H. unfold synchronize_blocks. destruct (d_methods d); [|cbn; rewrite firstn_nil; apply comes_refl]. cbn [negb].
    assert (all_rows t d = map (fun '(b, o) => Offsets b o) (d_blocks d)) as R
      by (unfold all_rows; destruct t; cbn in *; try reflexivity; contradiction).
    assert (B : comes P s (exec_all s (firstn k ((if is_some (s t) then [Drop t] else []) ++
         [Create t] ++ map (fun '(b, o) => Insert t (Offsets b o)) (d_blocks d) ++ [Commit])))).
    { rewrite insert_pairs, <- R. destruct (s t) eqn:E; cbn [is_some].
      - apply comes_prefix; [assumption|repeat constructor|assumption].
      - apply comes_prefix_block; [assumption|repeat constructor|assumption|assumption]. }
    destruct (s t) eqn:E; [|exact B]. destruct (d_takes d _); [cbn; rewrite firstn_nil; apply comes_refl|exact B].
  Qed.

  Lemma comes_store (P : table -> list (row A) -> Prop) zran d s k : by_kind P -> (forall t j, kind t = 2 -> P t (firstn j (all_rows t d))) ->
    comes P s (exec_all s (firstn k (fst (store_gzip_index bs zran d)))).
  Proof.
    intros K H. unfold store_gzip_index.
    set (t := if d_rapid d && d_formats d then GzToolIndex else GzipIndexes). set (rows := map Blob _).
    assert (Kt : kind t = 2) by (unfold t; destruct (_ && _); reflexivity).
    assert (R : all_rows t d = rows) by (unfold all_rows; rewrite Kt; reflexivity).
    assert (G : forall tail, Forall tail_stmt tail ->
              comes P s (exec_all s (firstn k ([Drop t; Create t] ++ map (Insert t) rows ++ tail)))).
    { intros tail T. apply comes_prefix; [assumption|assumption|]. intros j. rewrite <- R. now apply H. }
    destruct (d_fails d) as [e|].
    - destruct (negb zran); [|destruct (handled e)]; cbn [fst].
      + specialize (G [] (Forall_nil _)). now rewrite app_nil_r in G.
      + rewrite <- app_assoc. apply (G [Drop t]). repeat constructor.
      + specialize (G [] (Forall_nil _)). now rewrite app_nil_r in G.
    - cbn [fst]. rewrite <- app_assoc. apply G, tail_gzip.
  Qed.

  Lemma comes_synchronize zran memory c d s k :
    comes (part_of c d) s (exec_all s (firstn k (fst (synchronize bs zran memory c d s)))).
  Proof.
    unfold synchronize. destruct memory; [cbn; rewrite firstn_nil; apply comes_refl|].
    assert (N : comes (part_of c d) s (exec_all s (firstn k []))) by (rewrite firstn_nil; apply comes_refl).
    assert (G : exported_format c -> comes (part_of c d) s
      (exec_all s (firstn k (fst (match load_gzip_index s d with Some data => ([], Loaded data) | None => store_gzip_index bs zran d end))))).
    { intros E. destruct (load_gzip_index s d); [exact N|]. apply comes_store; [apply part_of_kind|].
      intros t j Kt. split; [unfold fits; now rewrite Kt|eauto]. }
    destruct c; try exact N.
    - destruct (d_methods d); [apply G; now left|exact N].
    - destruct (d_methods d); [apply G; now right|exact N].
    - apply comes_blocks; [apply part_of_kind|discriminate|]. intros j. split; [reflexivity|eauto].
    - apply comes_blocks; [apply part_of_kind|discriminate|]. intros j. split; [reflexivity|eauto].
  Qed.

  (** A whole mount. *)
  Definition whole_of (c : compression) (d : decoder A) (t : table) (rows : list (row A)) : Prop :=
    fits t c /\ rows = all_rows t d.
  Lemma whole_of_kind c d : by_kind (whole_of c d).
  Proof. intros t u rows K (F & E). split; [now apply (kind_fits t)|]. now rewrite <- (kind_rows t). Qed.

  Definition fails_known (zran : bool) (d : decoder A) : Prop :=
    d_fails d = None \/ zran = true /\ In (d_fails d) [Some RuntimeError; Some ValueError; Some RatarmountError].

  Lemma whole_blocks t c d s : kind t <> 2 -> fits t c ->
    let '(qs, o) := synchronize_blocks t d s in
    comes (whole_of c d) s (exec_all s qs) /\
    (o <> Built -> qs = []) /\
    (o = Built -> forall u, exec_all s qs u = if table_eqb u t then Some (all_rows t d) else s u).
  Proof.
    intros Hk F. unfold synchronize_blocks. destruct (d_methods d); [|split; [apply comes_refl|split; [auto|discriminate]]]. cbn [negb].
    assert (all_rows t d = map (fun '(b, o) => Offsets b o) (d_blocks d)) as R
      by (unfold all_rows; destruct t; cbn in *; try reflexivity; contradiction).
    assert (B : forall u, exec_all s ((if is_some (s t) then [Drop t] else []) ++
         [Create t] ++ map (fun '(b, o) => Insert t (Offsets b o)) (d_blocks d) ++ [Commit]) u =
         if table_eqb u t then Some (all_rows t d) else s u).
    { intros u. rewrite insert_pairs, <- R.
      destruct (s t) eqn:E; cbn [is_some].
      - rewrite !app_assoc, exec_all_app. cbn [exec_all fold_left exec]. exact (written t (all_rows t d) s u).
      - cbn [app]. rewrite app_comm_cons, exec_all_app. cbn [exec_all fold_left exec].
        change (exec_all (set_table s t (Some [])) (map (Insert t) (all_rows t d)) u = if table_eqb u t then Some (all_rows t d) else s u).
        rewrite inserts with (old := []) by (unfold set_table; now rewrite table_eqb_refl).
        unfold set_table. destruct (table_eqb u t); reflexivity. }
    assert (C : forall qs : list (stmt A), (forall u, exec_all s qs u = if table_eqb u t then Some (all_rows t d) else s u) ->
                comes (whole_of c d) s (exec_all s qs)).
    { intros qs E u rows H. rewrite E in H. destruct (table_eqb_spec u t) as [->|]; [|left; eauto].
      injection H as <-. right. split; auto. }
    destruct (s t) eqn:E; cbn [is_some] in B |- *.
    - destruct (d_takes d _); [split; [apply comes_refl|split; [auto|discriminate]]|].
      split; [now apply C|split; [congruence|auto]].
    - split; [now apply C|split; [congruence|auto]].
  Qed.

  Lemma gzip_built zran d s : d_fails d = None ->
    let '(qs, o) := store_gzip_index bs zran d in
    o = Built /\ comes (whole_of Gzip d) s (exec_all s qs) /\
    let rows := map Blob (w_table (snd (export bs (d_exports d)))) in
    let tool := d_rapid d && d_formats d in
    forall u, exec_all s qs u =
      match u with
      | GzToolIndex => if tool then Some rows else s u
      | GzipIndexes => if tool then s u else if Nat.eqb (length rows) 1 then None else Some rows
      | GzipIndex => if tool then s u else if Nat.eqb (length rows) 1 then Some rows else s u
      | _ => s u
      end.
  Proof.
    intros F. unfold store_gzip_index. rewrite F.
    set (rows := map Blob _). set (t := if d_rapid d && d_formats d then GzToolIndex else GzipIndexes).
    assert (Kt : kind t = 2) by (unfold t; destruct (_ && _); reflexivity).
    split; [reflexivity|]. split.
    - rewrite exec_all_app. apply comes_tail; [apply whole_of_kind|apply tail_gzip|]. apply comes_written.
      split; [unfold fits; rewrite Kt; now left|]. unfold all_rows. now rewrite Kt.
    - cbv zeta. intros u. rewrite exec_all_app.
      generalize (written t rows s). generalize (exec_all s ([Drop t; Create t] ++ map (Insert t) rows)). intros s1 W.
      rewrite (exec_all_app _ _ [Commit]). unfold t in W |- *. clearbody rows.
      destruct (d_rapid d && d_formats d); cbn [table_eqb].
      + rewrite andb_false_r. cbn [exec_all fold_left exec]. rewrite W. destruct u; reflexivity.
      + rewrite andb_true_r.
        destruct (Nat.eqb (length rows) 1); cbn [exec_all fold_left exec]; unfold set_table; rewrite ?W; destruct u; reflexivity.
  Qed.

  Lemma whole_synchronize zran memory c d s : fails_known zran d ->
    let '(qs, o) := synchronize bs zran memory c d s in
    forall u rows, exec_all s qs u = Some rows ->
      (exists u', kind u' = kind u /\ s u' = Some rows) \/ (o = Built /\ (exported_format c -> d_fails d = None) /\ whole_of c d u rows).
  Proof.
    intros F. unfold synchronize. destruct memory; [intros u rows H; left; eauto|].
    assert (N : forall u rows, exec_all s [] u = Some rows -> forall Q : Prop, (exists u', kind u' = kind u /\ s u' = Some rows) \/ Q)
      by (intros u rows H Q; left; eauto).
    assert (G : exported_format c ->
      let '(qs, o) := match load_gzip_index s d with Some data => ([], Loaded data) | None => store_gzip_index bs zran d end in
      forall u rows, exec_all s qs u = Some rows ->
      (exists u', kind u' = kind u /\ s u' = Some rows) \/ (o = Built /\ (exported_format c -> d_fails d = None) /\ whole_of c d u rows)).
    { intros E. destruct (load_gzip_index s d); [intros u rows H; now apply N|].
      destruct F as [F|(-> & F)].
      - generalize (gzip_built zran d s F). destruct (store_gzip_index bs zran d) as (qs, o). intros (-> & C & _) u rows H.
        destruct (C u rows H) as [L|(L1 & L2)]; [now left|right]. repeat split; auto.
        unfold fits in *. destruct (kind u) as [|[|k]]; try discriminate. exact E.
      - unfold store_gzip_index. assert (exists e, d_fails d = Some e /\ handled e = true) as (e & -> & He)
          by (cbn in F; intuition; eexists; (split; [symmetry; eassumption|reflexivity])).
        cbn [negb]. rewrite He. intros u rows H. left. exists u. split; [reflexivity|]. revert H.
        rewrite exec_all_app.
        match goal with |- exec_all (exec_all s ([Drop ?t; _] ++ map _ ?rs)) _ _ = _ -> _ =>
          generalize (written t rs s); generalize (exec_all s ([Drop t; Create t] ++ map (Insert t) rs)); set (t' := t) end.
        intros s1 W. cbn [exec_all fold_left exec]. unfold set_table.
        destruct (table_eqb_spec u t') as [->|Hn]; [discriminate|].
        rewrite W. destruct (table_eqb_spec u t'); [contradiction|auto]. }
    destruct c; try (intros u rows H; now apply N).
    - destruct (d_methods d); [apply G; now left|intros u rows H; now apply N].
    - destruct (d_methods d); [apply G; now right|intros u rows H; now apply N].
    - generalize (whole_blocks Bzip2Blocks Bzip2 d s ltac:(discriminate) eq_refl).
      destruct (synchronize_blocks Bzip2Blocks d s) as (qs, o). intros (C & S & _) u rows H.
      destruct (C u rows H) as [L|L]; [now left|]. destruct o; try (rewrite S in H by discriminate; now apply N).
      right. split; [reflexivity|]. split; [intros [E|E]; discriminate|assumption].
    - generalize (whole_blocks ZstdBlocks Zstandard d s ltac:(discriminate) eq_refl).
      destruct (synchronize_blocks ZstdBlocks d s) as (qs, o). intros (C & S & _) u rows H.
      destruct (C u rows H) as [L|L]; [now left|]. destruct o; try (rewrite S in H by discriminate; now apply N).
      right. split; [reflexivity|]. split; [intros [E|E]; discriminate|assumption].
  Qed.

  (** What is loaded is in a table. *)
  Lemma load_from_in (s : db A) d ts data : load_from s d ts = Some data ->
    exists t, In t ts /\ d_accepts d data = true /\ data = concat (map blob_of (match s t with Some rows => rows | None => [] end)).
  Proof.
    induction ts as [|t ts IH]; [discriminate|]. cbn [load_from]; cbv zeta.
    match goal with |- (if d_accepts d ?x then _ else _) = _ -> _ => destruct (d_accepts d x) eqn:E end.
    - intros H. injection H as <-. exists t. split; [now left|]. split; [exact E|reflexivity].
    - intros H. destruct (IH H) as (t' & I & R). exists t'. split; [now right|exact R].
  Qed.

  Lemma index_tables_in (s : db A) d t : In t (index_tables s d) -> kind t = 2 /\ exists rows, s t = Some rows.
  Proof.
    unfold index_tables. rewrite in_app_iff, filter_In. intros [H|(H & E)].
    - destruct (s GzToolIndex) eqn:E; cbn in H; [|contradiction]. destruct (d_rapid d); cbn in H; [|contradiction].
      destruct H as [<-|[]]. split; eauto.
    - assert (kind t = 2) by (destruct H as [<-|[<-|[]]]; reflexivity). split; [assumption|]. destruct (s t); [eauto|discriminate].
  Qed.

  Lemma loaded_in zran memory c d (s : db A) data : snd (synchronize bs zran memory c d s) = Loaded data ->
    exported_format c /\ exists t rows, kind t = 2 /\ s t = Some rows /\ data = concat (map blob_of rows).
  Proof.
    unfold synchronize. destruct memory; [discriminate|].
    assert (G : snd (match load_gzip_index s d with Some data => ([], Loaded data) | None => store_gzip_index bs zran d end) = Loaded data ->
      exists t rows, kind t = 2 /\ s t = Some rows /\ data = concat (map blob_of rows)).
    { destruct (load_gzip_index s d) as [x|] eqn:E.
      - cbn. intros H. injection H as ->. apply load_from_in in E. destruct E as (t & I & _ & ->).
        apply index_tables_in in I. destruct I as (K & rows & E). exists t, rows. rewrite E. auto.
      - unfold store_gzip_index. destruct (d_fails d); [destruct (negb zran); [|destruct (handled _)]|]; discriminate. }
    assert (B : forall t, snd (synchronize_blocks t d s) = Loaded data -> False).
    { intros t. unfold synchronize_blocks. destruct (negb (d_methods d)); [discriminate|].
      destruct (s t); [destruct (d_takes d _)|]; discriminate. }
    destruct c; try discriminate; try (intros H; now apply B in H).
    - destruct (d_methods d); [|discriminate]. intros H. split; [now left|auto].
    - destruct (d_methods d); [|discriminate]. intros H. split; [now right|auto].
  Qed.

  Lemma loaded_blocks_in zran memory c d (s : db A) l : snd (synchronize bs zran memory c d s) = LoadedBlocks l ->
    exists t rows, kind t <> 2 /\ fits t c /\ s t = Some rows /\ l = map pair_of rows.
  Proof.
    unfold synchronize. destruct memory; [discriminate|].
    assert (G : snd (match load_gzip_index s d with Some data => ([], Loaded data) | None => store_gzip_index bs zran d end) <> LoadedBlocks l).
    { destruct (load_gzip_index s d) as [x|] eqn:E; [discriminate|].
      unfold store_gzip_index. destruct (d_fails d); [destruct (negb zran); [|destruct (handled _)]|]; discriminate. }
    assert (B : forall t, snd (synchronize_blocks t d s) = LoadedBlocks l -> exists rows, s t = Some rows /\ l = map pair_of rows).
    { intros t. unfold synchronize_blocks. destruct (negb (d_methods d)); [discriminate|].
      destruct (s t); [destruct (d_takes d _)|]; try discriminate. cbn. intros H. injection H as <-. eauto. }
    destruct c; try discriminate.
    - destruct (d_methods d); [intros H; contradiction|discriminate].
    - destruct (d_methods d); [intros H; contradiction|discriminate].
    - intros H. apply B in H. destruct H as (rows & H). exists Bzip2Blocks, rows. repeat split; try discriminate; apply H.
    - intros H. apply B in H. destruct H as (rows & H). exists ZstdBlocks, rows. repeat split; try discriminate; apply H.
  Qed.

  (** Histories. *)
  Definition after (es : list (event A)) (s : db A) : db A := fold_left (fun s e => fst (use bs s e)) es s.

  Lemma outcomes_nth : forall es n s o, nth_error (outcomes bs s es) n = Some o <->
    exists e, nth_error es n = Some e /\ o = snd (use bs (after (firstn n es) s) e).
  Proof.
    induction es as [|e es IH]; intros n s o.
    - split; [destruct n; discriminate|intros (e & H & _); destruct n; discriminate].
    - cbn [outcomes]. destruct (use bs s e) as (s', o') eqn:E. destruct n as [|n]; cbn [nth_error firstn].
      + split; [intros H; injection H as <-; exists e; cbn; now rewrite E|].
        intros (e' & H & ->). injection H as <-. cbn. now rewrite E.
      + rewrite IH. unfold after. cbn [fold_left]. rewrite E. reflexivity.
  Qed.

  Lemma after_S es n e s : nth_error es n = Some e -> after (firstn (S n) es) s = fst (use bs (after (firstn n es) s) e).
  Proof.
    intros H. assert (firstn (S n) es = firstn n es ++ [e]) as ->.
    { revert n H. induction es as [|x es IH]; intros [|n] H; try discriminate; cbn in *; [now injection H as ->|].
      f_equal. now apply IH. }
    unfold after. rewrite fold_left_app. reflexivity.
  Qed.

  Lemma clear_all (s : db A) u : exec_all s clear u = None.
  Proof. cbn. unfold set_table. destruct u; reflexivity. Qed.

  Lemma comes_clear P s k : by_kind P -> comes P s (exec_all s (firstn k clear)).
  Proof. intros K. apply comes_tail; [assumption|apply Forall_firstn; repeat constructor|apply comes_refl]. Qed.

  Definition source (es : list (event A)) (n : nat) (P : nat -> bool -> compression -> decoder A -> Prop) : Prop :=
    exists m zran memory c d cut, before es m n /\ nth_error es m = Some (Mount zran memory c d cut) /\ P m zran c d.

  Lemma source_S es n e P : nth_error es n = Some e -> e <> Clear None -> source es n P -> source es (S n) P.
  Proof.
    intros E N (m & z & me & c & d & cut & (L & B) & R). exists m, z, me, c, d, cut. split; [|exact R]. split; [lia|].
    intros j Hj. destruct (Nat.eq_dec j n) as [->|]; [congruence|apply B; lia].
  Qed.
  Lemma source_new es n z me c d cut (P : nat -> bool -> compression -> decoder A -> Prop) :
    nth_error es n = Some (Mount z me c d cut) -> P n z c d -> source es (S n) P.
  Proof. intros E H. exists n, z, me, c, d, cut. split; [split; [lia|intros j; lia]|]. auto. Qed.

  (** Every table holds a part of what one mount has exported. *)
  Lemma parts es : forall n t rows, n <= length es -> after (firstn n es) no_tables t = Some rows ->
    source es n (fun _ _ c d => part_of c d t rows).
  Proof.
    induction n as [|n IH]; intros t rows L H; [discriminate|].
    destruct (nth_error es n) as [e|] eqn:E; [|apply nth_error_None in E; lia].
    rewrite (after_S _ _ _ _ E) in H. set (s := after (firstn n es) no_tables) in *.
    assert (Old : forall u', kind u' = kind t -> s u' = Some rows -> e <> Clear None -> source es (S n) (fun _ _ c d => part_of c d t rows)).
    { intros u' K Hs N. eapply source_S; [exact E|exact N|].
      destruct (IH u' rows ltac:(lia) Hs) as (m & z & me & c & d & cut & B & Em & Hp).
      exists m, z, me, c, d, cut. repeat split; try apply B; try exact Em; eapply part_of_kind; eauto. }
    destruct e as [zran memory c d cut|cut].
    - unfold use in H. cbn [statements] in H. destruct (synchronize bs zran memory c d s) as (qs, o) eqn:Eq. cbn [fst] in H.
      assert (exists k, exec_all s (firstn k qs) t = Some rows) as (k & Hk).
      { destruct cut as [k|]; [eauto|]. exists (length qs). now rewrite firstn_all. }
      generalize (comes_synchronize zran memory c d s k). rewrite Eq. cbn [fst]. intros C.
      destruct (C t rows Hk) as [(u' & K & Hs)|P]; [apply (Old u' K Hs); discriminate|]. eapply source_new; [exact E|exact P].
    - unfold use in H. cbn [statements fst] in H. destruct cut as [k|].
      + destruct (comes_clear (fun _ _ => False) s k ltac:(now intros t0 u rows0 _) t rows H) as [(u' & K & Hs)|[]].
        apply (Old u' K Hs). discriminate.
      + now rewrite clear_all in H.
  Qed.

  Lemma wholes es : Forall uninterrupted es -> forall n t rows, n <= length es -> after (firstn n es) no_tables t = Some rows ->
    source es n (fun m _ c d => nth_error (outcomes bs no_tables es) m = Some Built /\ (exported_format c -> d_fails d = None) /\ whole_of c d t rows).
  Proof.
    intros U. induction n as [|n IH]; intros t rows L H; [discriminate|].
    destruct (nth_error es n) as [e|] eqn:E; [|apply nth_error_None in E; lia].
    assert (Ue : uninterrupted e) by (rewrite Forall_forall in U; eapply U, nth_error_In; eassumption).
    rewrite (after_S _ _ _ _ E) in H. set (s := after (firstn n es) no_tables) in *.
    destruct e as [zran memory c d cut|cut].
    - destruct Ue as (-> & F). unfold use in H. cbn [statements] in H.
      generalize (whole_synchronize zran memory c d s F).
      destruct (synchronize bs zran memory c d s) as (qs, o) eqn:Eq. cbn [fst] in H. intros W.
      destruct (W t rows H) as [(u' & K & Hs)|(-> & Hf & P)].
      + eapply source_S; [exact E|discriminate|].
        destruct (IH u' rows ltac:(lia) Hs) as (m & z & me & c' & d' & cut & B & Em & Hb & Hf & Hp).
        exists m, z, me, c', d', cut. repeat split; try apply B; try exact Em; try assumption; eapply whole_of_kind; eauto.
      + eapply source_new; [exact E|]. split; [|split; assumption].
        apply outcomes_nth. eexists. split; [exact E|]. fold s. unfold use. cbn [statements]. now rewrite Eq.
    - cbn in Ue. subst cut. unfold use in H. cbn [statements fst] in H. now rewrite clear_all in H.
  Qed.

  Lemma nth_outcome_event es n (o : outcome A) : nth_error (outcomes bs no_tables es) n = Some o -> n <= length es.
  Proof.
    intros H. apply outcomes_nth in H. destruct H as (e & H & _). apply Nat.lt_le_incl. apply nth_error_Some. congruence.
  Qed.

  Lemma blobs_of (l : list (list A)) : map blob_of (map Blob l) = l.
  Proof. rewrite map_map. apply map_id. Qed.
  Lemma pairs_of (l : list (Z * Z)) : map (@pair_of A) (map (fun '(b, o) => Offsets b o) l) = l.
  Proof. rewrite map_map. rewrite <- (map_id l) at 2. apply map_ext. now intros (b, o). Qed.

  Lemma all_blobs t d : kind t = 2 -> concat (map blob_of (all_rows t d)) = concat (d_exports d).
  Proof.
    intros K. unfold all_rows. rewrite K, blobs_of.
    destruct (C08_blobs_hold_written A bs (d_exports d)) as (_ & E & _). exact E.
  Qed.
  Lemma all_pairs t d : kind t <> 2 -> map pair_of (all_rows t d) = d_blocks d.
  Proof. intros K. unfold all_rows. destruct (kind t) as [|[|[|k]]] eqn:E; try apply pairs_of. contradiction. Qed.

  Lemma snd_use (s : db A) zran memory c d cut : snd (use bs s (Mount zran memory c d cut)) = snd (synchronize bs zran memory c d s).
  Proof. unfold use. cbn [statements]. destruct (synchronize bs zran memory c d s). reflexivity. Qed.

  (** The next mount. *)
  Lemma load_unchanged zran memory c d (s : db A) x : snd (synchronize bs zran memory c d s) = x ->
    (exists data, x = Loaded data) \/ (exists l, x = LoadedBlocks l) -> fst (synchronize bs zran memory c d s) = [].
  Proof.
    unfold synchronize. destruct memory; [reflexivity|]. intros <- H.
    assert (G : (exists data, snd (match load_gzip_index s d with Some data => ([], Loaded data) | None => store_gzip_index bs zran d end) = Loaded data)
       \/ (exists l, snd (match load_gzip_index s d with Some data => ([], Loaded data) | None => store_gzip_index bs zran d end) = LoadedBlocks l) ->
       fst (match load_gzip_index s d with Some data => ([], Loaded data) | None => store_gzip_index bs zran d end) = []).
    { destruct (load_gzip_index s d); [reflexivity|]. unfold store_gzip_index.
      destruct (d_fails d); [destruct (negb zran); [|destruct (handled _)]|]; intros [(? & E)|(? & E)]; discriminate. }
    assert (B : forall t, (exists data, snd (synchronize_blocks t d s) = Loaded data)
       \/ (exists l, snd (synchronize_blocks t d s) = LoadedBlocks l) -> fst (synchronize_blocks t d s) = []).
    { intros t. unfold synchronize_blocks. destruct (negb (d_methods d)); [reflexivity|].
      destruct (s t); [destruct (d_takes d _); [reflexivity|]|]; intros [(? & E)|(? & E)]; discriminate. }
    destruct c; try reflexivity; auto; destruct (d_methods d); auto.
  Qed.

  Lemma load_gzip_ext (s : db A) s' d : (forall t, kind t = 2 -> s t = s' t) -> load_gzip_index s d = load_gzip_index s' d.
  Proof.
    intros H. unfold load_gzip_index, index_tables. cbn [filter].
    rewrite (H GzToolIndex), (H GzipIndexes), (H GzipIndex) by reflexivity.
    assert (L : forall ts, Forall (fun t => kind t = 2) ts -> load_from s d ts = load_from s' d ts).
    { induction 1 as [|t ts K _ IH]; [reflexivity|]. cbn [load_from]. now rewrite (H t K), IH. }
    apply L. destruct (_ && _), (is_some (s' GzipIndexes)), (is_some (s' GzipIndex)); repeat constructor.
  Qed.

  Lemma next_gzip zran d (s : db A) : d_methods d = true -> d_fails d = None -> d_accepts d (concat (d_exports d)) = true ->
    load_gzip_index s d = None -> load_gzip_index (exec_all s (fst (store_gzip_index bs zran d))) d = Some (concat (d_exports d)).
  Proof.
    intros Hm Hf Ha Hl. generalize (gzip_built zran d s Hf). destruct (store_gzip_index bs zran d) as (qs, o). cbn [fst].
    intros (_ & _ & E). cbv zeta in E. set (s' := exec_all s qs) in *.
    set (l := w_table (snd (export bs (d_exports d)))) in *.
    assert (Data : concat (map blob_of (map Blob l)) = concat (d_exports d)).
    { rewrite blobs_of. destruct (C08_blobs_hold_written A bs (d_exports d)) as (_ & X & _). exact X. }
    unfold load_gzip_index, index_tables in Hl |- *. cbn [filter] in Hl |- *.
    generalize (E GzToolIndex) (E GzipIndexes) (E GzipIndex). cbv beta iota. intros E1 E2 E3.
    destruct (d_rapid d) eqn:R; cbn [andb] in *.
    - destruct (d_formats d).
      + rewrite E1, E2, E3. cbn [is_some app load_from andb]. rewrite E1, Data, Ha. reflexivity.
      + rewrite E1. rewrite andb_true_r in *.
        destruct (s GzToolIndex) as [old|] eqn:S1; cbn [is_some] in *.
        * cbn [app load_from] in *. rewrite S1 in Hl. rewrite E1. destruct (d_accepts d (concat (map blob_of old))); [discriminate|].
          destruct (Nat.eqb (length (map Blob l)) 1).
          -- rewrite E2, E3. cbn [is_some load_from]. now rewrite E3, Data, Ha.
          -- rewrite E2, E3. cbn [is_some load_from]. now rewrite E2, Data, Ha.
        * cbn [app] in *.
          destruct (Nat.eqb (length (map Blob l)) 1).
          -- rewrite E2, E3. cbn [is_some load_from]. now rewrite E3, Data, Ha.
          -- rewrite E2, E3. cbn [is_some load_from]. now rewrite E2, Data, Ha.
    - rewrite andb_false_r. cbn [app].
      destruct (Nat.eqb (length (map Blob l)) 1).
      + rewrite E2, E3. cbn [is_some load_from]. now rewrite E3, Data, Ha.
      + rewrite E2, E3. cbn [is_some load_from]. now rewrite E2, Data, Ha.
  Qed.

  Lemma next_blocks t c d (s : db A) : kind t <> 2 -> fits t c -> d_methods d = true -> d_takes d (d_blocks d) = true ->
    let '(qs, o) := synchronize_blocks t d s in
    exists l, synchronize_blocks t d (exec_all s qs) = ([], LoadedBlocks l) /\
      (o = LoadedBlocks l /\ qs = [] \/ o = Built /\ l = d_blocks d).
  Proof.
    intros K F M T. generalize (whole_blocks t c d s K F). destruct (synchronize_blocks t d s) as (qs, o) eqn:E.
    intros (_ & N & B).
    assert (O : o = Built \/ exists l, o = LoadedBlocks l).
    { revert E. unfold synchronize_blocks. rewrite M. cbn [negb]. cbv zeta. clear T. destruct (s t); [destruct (d_takes d _)|]; intros X; injection X as _ <-; eauto. }
    destruct O as [->|(l & ->)].
    - exists (d_blocks d). specialize (B eq_refl). split; [|auto]. unfold synchronize_blocks. rewrite M, B, table_eqb_refl. cbn [negb].
      cbv zeta. rewrite all_pairs by assumption. now rewrite T.
    - rewrite N in * by discriminate. exists l. cbn [exec_all fold_left]. auto.
  Qed.
End Proofs.
