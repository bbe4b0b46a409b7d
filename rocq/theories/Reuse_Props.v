(** C107: when the stored index of an archive is used again, and what is shown then. *)
From Coq Require Import Ascii String.
From Verif Require Import PyBase PyStr Reuse_Model Reuse_Spec Reuse_Proofs.
Local Open Scope Z_scope.

Section Props.
  Context {A G R : Type}.
  Variable same_args : G -> G -> bool.
  Variable parse : G -> A -> res R.
  Variable first_opens : A -> R -> bool.
  Notation mount := (mount A G R same_args parse first_opens).
  Notation run := (run A G R same_args parse first_opens).
  Notation event := (event A G).
  Notation index := (index G R).
  Notation file := (file A).

  (** Nothing is ever shown that is not what the archive held at some time during the history. *)
  Theorem C107_only_past_contents (f : file) (h : list event) (o : options G) m :
    fst (mount (archive_after f h) (snd (run (f, None) h)) o) = Ok m ->
    exists a g, In a (archives f h) /\ (g = o_args _ o \/ exists o', In (Mount _ _ o') h /\ g = o_args _ o') /\ parse g (f_content _ a) = Ok (r_rows _ m).
  Proof.
    intros H. set (P := fun g c => (g = o_args _ o \/ exists o', In (Mount A G o') h /\ g = o_args _ o') /\ exists a, In a (archives f h) /\ c = f_content _ a).
    destruct (run_invariant same_args parse first_opens (fun f' x => In f' (archives f h) /\ made parse P x) (fun e => In e h) h (f, None)) as [I1 I2].
    - intros f' x [f2|o'] [Ia Im] Ie; cbn [fst snd].
      + split; [now apply archives_change|exact Im].
      + rewrite step_mount. cbn [fst snd]. split; [exact Ia|]. destruct (mount f' x o') as [r x'] eqn:E.
        refine (proj1 (mount_made same_args parse first_opens P _ _ _ _ _ E Im _)). split; eauto.
    - split; [apply archives_first|intros i; discriminate].
    - auto.
    - rewrite run_file in I1. cbn [fst] in I1. destruct (mount (archive_after f h) _ o) as [r x'] eqn:E.
      destruct (mount_made same_args parse first_opens P _ _ _ _ _ E I2) as [_ K]; [split; eauto|].
      destruct (K _ H) as (g & c & (Pg & a & Pa & ->) & Pp). exists a, g. auto.
  Qed.

  (** The archive is not touched and the arguments stay the same: every mount shows what the archive holds. *)
  Theorem C107_unchanged (f : file) (h : list event) (o : options G) m :
    mounts_only h -> every_mount (fun o' => o_args _ o' = o_args _ o) h ->
    fst (mount f (snd (run (f, None) h)) o) = Ok m -> parse (o_args _ o) (f_content _ f) = Ok (r_rows _ m).
  Proof.
    intros Hm He H. assert (archive_after f h = f /\ archives f h = [f]) as [E1 E2].
    { clear - Hm. induction h as [|e h IH]; [split; reflexivity|]. destruct (Hm e (or_introl eq_refl)) as [o' ->]. cbn. apply IH. intros e' I. apply Hm. now right. }
    rewrite <- E1 in H at 1. apply C107_only_past_contents in H as (a & g & Ia & Ig & Ip). rewrite E2 in Ia. destruct Ia as [<-|[]].
    assert (g = o_args _ o) as -> by (destruct Ig as [->|(o' & I' & ->)]; [reflexivity|now apply He]). exact Ip.
  Qed.

  (** With verifyModificationTime at every mount, and if contents with the same time stamp are the same, every mount shows what the
      archive holds, however often it was replaced. *)
  Theorem C107_verified (f : file) (h : list event) (o : options G) m :
    o_verify _ o = true -> every_mount (fun o' => o_verify _ o' = true /\ o_args _ o' = o_args _ o) h ->
    (forall a b, In a (archives f h) -> In b (archives f h) -> f_mtime _ a = f_mtime _ b -> f_content _ a = f_content _ b) ->
    fst (mount (archive_after f h) (snd (run (f, None) h)) o) = Ok m ->
    parse (o_args _ o) (f_content _ (archive_after f h)) = Ok (r_rows _ m).
  Proof.
    intros V He Hu H. set (T := fun t c => exists a, In a (archives f h) /\ t = f_mtime _ a /\ c = f_content _ a).
    assert (forall t c c', T t c -> T t c' -> c = c') as Tu. { intros t c c' (a & Ia & -> & ->) (b & Ib & E & ->). now apply Hu. }
    destruct (run_invariant same_args parse first_opens (fun f' x => In f' (archives f h) /\ stamped parse (o_args _ o) T x) (fun e => In e h) h (f, None)) as [I1 I2].
    - intros f' x [f2|o'] [Ia Im] Ie; cbn [fst snd].
      + split; [now apply archives_change|exact Im].
      + rewrite step_mount. cbn [fst snd]. split; [exact Ia|]. destruct (mount f' x o') as [r x'] eqn:E. destruct (He _ Ie) as [V' E'].
        refine (proj1 (mount_stamped same_args parse first_opens _ T _ _ _ _ _ E Im _ Tu V' E')). exists f'. auto.
    - split; [apply archives_first|intros i; discriminate].
    - auto.
    - rewrite run_file in I1. cbn [fst] in I1. destruct (mount (archive_after f h) _ o) as [r x'] eqn:E.
      refine (proj2 (mount_stamped same_args parse first_opens _ T _ _ _ _ _ E I2 _ Tu V eq_refl) _ H). exists (archive_after f h). auto.
  Qed.

  (** A mount that may write follows up with a smaller archive: the next mount makes its index anew and shows what the archive holds. *)
  Theorem C107_shrunk (f : file) (h : list event) (o1 o2 : options G) m1 m2 (f2 : file) :
    let before := run (f, None) h in let f1 := archive_after f h in
    o_read_only _ o1 = false -> fst (mount f1 (snd before) o1) = Ok m1 ->
    f_size _ f2 < f_size _ f1 ->
    fst (mount f2 (snd (run (f, None) (h ++ [Mount _ _ o1; Change _ _ f2]))) o2) = Ok m2 ->
    r_built _ m2 = true /\ parse (o_args _ o2) (f_content _ f2) = Ok (r_rows _ m2).
  Proof.
    cbv zeta. intros Ro H1 Hs H2. rewrite run_app in H2. unfold Reuse_Model.run at 1 in H2. cbn [fold_left] in H2. rewrite step_mount in H2. cbn [fst snd step] in H2.
    rewrite run_file in H2. cbn [fst] in H2. destruct (mount (archive_after f h) _ o1) as [r1 x1] eqn:E1. cbn [fst snd] in *. subst r1.
    assert (forall i, x1 = Some i -> exists t, m_stats _ (x_meta _ _ i) = Some (Some (f_size _ (archive_after f h)), t)) as K.
    { intros i Ei. destruct (mount_cases _ _ _ _ _ _ _ _ E1) as [[D1 D2]|[(j & w & _ & _ & _ & _ & D)|[(j & e & _ & _ & _ & D & _)|(j & e & _ & _ & _ & _ & D & _)]]]; try discriminate.
      - rewrite D2 in Ei. apply build_index in Ei as (_ & _ & _ & ->). eexists. reflexivity.
      - rewrite Ro in D. rewrite D in Ei. injection Ei as <-. eexists. reflexivity. }
    destruct (mount f2 x1 o2) as [r2 x2] eqn:E2. cbn [fst] in H2. subst r2.
    destruct (mount_cases _ _ _ _ _ _ _ _ E2) as [[D1 D2]|[(j & w & _ & D & C & _)|[(j & e & _ & _ & _ & D & _)|(j & e & _ & _ & _ & _ & D & _)]]]; try discriminate.
    - symmetry in D1. apply build_ok in D1 as (D1 & D3 & _). auto.
    - exfalso. destruct (K _ D) as (t & Et). unfold check, check_archive_stats in C. rewrite Et in C. destruct (check_backend _ _ _); cbn [bind] in C; [|discriminate].
      destruct (f_size _ f2 <? f_size _ (archive_after f h)) eqn:L; [discriminate|lia].
  Qed.

  (** An index that was asked to be made anew is. *)
  Theorem C107_recreate (f : file) (x : option index) (o : options G) m :
    o_recreate _ o = true -> fst (mount f x o) = Ok m -> r_built _ m = true /\ parse (o_args _ o) (f_content _ f) = Ok (r_rows _ m).
  Proof.
    intros Hr H. unfold Reuse_Model.mount in H. rewrite Hr in H. apply build_ok in H as (E & B & _). auto.
  Qed.

  (** Making the index a second time is spared: after a mount that stored its index, a mount of the same archive with the same back end
      takes the stored one, says so, leaves it for the next one, and warns exactly if the arguments differ from those of the mount before. *)
  Theorem C107_reused (f : file) (x : option index) (o1 o2 : options G) m1 :
    o_read_only _ o1 = false -> o_write _ o1 = true -> o_recreate _ o2 = false -> o_backend _ o2 = o_backend _ o1 ->
    fst (mount f x o1) = Ok m1 ->
    exists m2 i, mount f (snd (mount f x o1)) o2 = (Ok m2, Some i) /\ x_rows _ _ i = r_rows _ m1 /\
      r_rows _ m2 = r_rows _ m1 /\ r_built _ m2 = false /\ r_warned _ m2 = negb (same_args (o_args _ o1) (o_args _ o2)).
  Proof.
    intros Ro Wr Rc Eb H. destruct (mount f x o1) as [r1 x1] eqn:E1. cbn [fst snd] in *. subst r1.
    assert (exists i, x1 = Some i /\ x_rows _ _ i = r_rows _ m1 /\ x_meta _ _ i = metadata A G f o1) as (i & -> & Er & Em).
    { destruct (mount_cases _ _ _ _ _ _ _ _ E1) as [[D1 D2]|[(j & w & _ & _ & _ & D1 & D2)|[(j & e & _ & _ & _ & D & _)|(j & e & _ & _ & _ & _ & D & _)]]]; try discriminate.
      - unfold build in D1, D2. rewrite Ro in D1, D2. destruct (parse _ _) as [r|]; [|discriminate]. cbn [fst snd] in D1, D2. rewrite Wr in D2. injection D1 as ->.
        eexists. split; [exact D2|split; reflexivity].
      - rewrite Ro in D2. injection D1 as ->. eexists. split; [exact D2|split; reflexivity]. }
    unfold Reuse_Model.mount. rewrite Rc. unfold check, check_backend, check_archive_stats, differing. rewrite Em. unfold metadata. cbn [m_stats m_args m_backend].
    rewrite Eb. destruct (str_eqb_spec (o_backend _ o1) (o_backend _ o1)) as [_|N]; [|congruence].
    assert ((if str_eqb (o_backend G o1) [] then Ok tt else Ok tt) = Ok tt) as -> by now destruct (str_eqb _ _).
    cbn [bind]. rewrite Z.ltb_irrefl, Z.eqb_refl. cbn [negb]. rewrite andb_false_r. cbn [bind].
    eexists. eexists. split; [reflexivity|]. cbn [r_rows r_built r_warned]. destruct (o_read_only _ o2); cbn [x_rows]; auto.
  Qed.

  (** An index made by one back end is not used by another one, and it is not lost either. *)
  Theorem C107_backend (f f2 : file) (x : option index) (o1 o2 : options G) m1 :
    o_read_only _ o1 = false -> o_write _ o1 = true -> o_recreate _ o2 = false -> o_backend _ o2 <> [] -> o_backend _ o2 <> o_backend _ o1 ->
    fst (mount f x o1) = Ok m1 ->
    mount f2 (snd (mount f x o1)) o2 = (Err MismatchingIndexError, snd (mount f x o1)) /\
    exists i, snd (mount f x o1) = Some i /\ x_rows _ _ i = r_rows _ m1.
  Proof.
    intros Ro Wr Rc En Eb H. destruct (mount f x o1) as [r1 x1] eqn:E1. cbn [fst snd] in *. subst r1.
    assert (exists i, x1 = Some i /\ x_rows _ _ i = r_rows _ m1 /\ x_meta _ _ i = metadata A G f o1) as (i & -> & Er & Em).
    { destruct (mount_cases _ _ _ _ _ _ _ _ E1) as [[D1 D2]|[(j & w & _ & _ & _ & D1 & D2)|[(j & e & _ & _ & _ & D & _)|(j & e & _ & _ & _ & _ & D & _)]]]; try discriminate.
      - unfold build in D1, D2. rewrite Ro in D1, D2. destruct (parse _ _) as [r|]; [|discriminate]. cbn [fst snd] in D1, D2. rewrite Wr in D2. injection D1 as ->.
        eexists. split; [exact D2|split; reflexivity].
      - rewrite Ro in D2. injection D1 as ->. eexists. split; [exact D2|split; reflexivity]. }
    split; [|eauto]. unfold Reuse_Model.mount. rewrite Rc. unfold check, check_backend. rewrite Em. cbn [metadata m_backend].
    destruct (str_eqb_spec (o_backend _ o2) []) as [|_]; [contradiction|]. destruct (str_eqb_spec (o_backend _ o1) (o_backend _ o2)) as [E|_]; [congruence|]. reflexivity.
  Qed.

  (** Without leave to write nothing is stored, whatever is found; and nothing is made. *)
  Theorem C107_read_only (f : file) (x : option index) (o : options G) m :
    o_read_only _ o = true -> o_recreate _ o = false ->
    snd (mount f x o) = x /\ (fst (mount f x o) = Ok m -> r_built _ m = false).
  Proof.
    intros Ro Rc. destruct (mount f x o) as [r x'] eqn:E. cbn [fst snd].
    destruct x as [i|].
    - unfold Reuse_Model.mount in E. rewrite Rc, Ro in E. destruct (check _ _ _ _ _ f o i) as [w|e]; [|destruct e]; injection E as <- <-; (split; [reflexivity|]; try discriminate).
      intros [= <-]. reflexivity.
    - unfold Reuse_Model.mount, build in E. rewrite Rc, Ro in E. injection E as <- <-. split; [reflexivity|discriminate].
  Qed.

  (** Indexes of older versions, without the statistics, the arguments or the back end, are still used: if its first file can be opened,
      such an index is shown as it is and without a warning, and otherwise it is made anew if it may be. *)
  Theorem C107_old_index (f : file) (i : index) (o : options G) :
    o_recreate _ o = false -> m_args _ (x_meta _ _ i) = None -> m_backend _ (x_meta _ _ i) = None ->
    (m_stats _ (x_meta _ _ i) = None \/ m_stats _ (x_meta _ _ i) = Some (None, None)) ->
    (first_opens (f_content _ f) (x_rows _ _ i) = true -> fst (mount f (Some i) o) = Ok (mkMounted _ (x_rows _ _ i) false false)) /\
    (first_opens (f_content _ f) (x_rows _ _ i) = false -> forall m, fst (mount f (Some i) o) = Ok m ->
       o_read_only _ o = false /\ r_built _ m = true /\ parse (o_args _ o) (f_content _ f) = Ok (r_rows _ m)).
  Proof.
    intros Rc Ea Eb Es. unfold Reuse_Model.mount. rewrite Rc. unfold check, check_backend, check_archive_stats, differing. rewrite Ea, Eb.
    assert ((if str_eqb (o_backend G o) [] then Ok tt else Ok tt) = Ok tt) as -> by now destruct (str_eqb _ _).
    assert (forall X (a : X) b c, match m_stats G (x_meta G R i) with None => a | Some (s, t) =>
       if match s with Some s => f_size _ f <? s | None => false end then b
       else if o_verify _ o && match t with Some t => negb (f_mtime _ f =? t) | None => false end then c else a end = a) as K.
    { intros X a b c. destruct Es as [-> | ->]; [reflexivity|]. now rewrite andb_false_r. }
    cbn [bind]. rewrite K. cbn [bind]. split; intros ->; [reflexivity|]. intros m. destruct (o_read_only _ o) eqn:Ro; [discriminate|].
    intros H. apply build_ok in H as (E & B & _). auto.
  Qed.
End Props.

(** Not so, wanted: with verifyModificationTime a mount shows what the archive holds, if every change gave it another time stamp.  One mount
    without that option stores the new time stamp with the old table, and later mounts find nothing wrong. *)
Theorem C107_verify_refuted : ~ forall (f : file nat) (h : list (event nat nat)) (o : options nat) m,
    o_verify _ o = true -> every_mount (fun o' => o_args _ o' = o_args _ o) h ->
    (forall a b, In a (archives f h) -> In b (archives f h) -> f_mtime _ a = f_mtime _ b -> f_content _ a = f_content _ b) ->
    fst (mount nat nat nat Nat.eqb (fun _ c => Ok c) (fun _ _ => true) (archive_after f h)
           (snd (run nat nat nat Nat.eqb (fun _ c => Ok c) (fun _ _ => true) (f, None) h)) o) = Ok m ->
    r_rows _ m = f_content _ (archive_after f h).
Proof.
  intros H. set (old := mkFile nat 1%nat 100 1000). set (new := mkFile nat 2%nat 100 2000).
  set (plain := mkOptions nat false false 0%nat ($"zip") true false). set (verifying := mkOptions nat true false 0%nat ($"zip") true false).
  specialize (H old [Mount _ _ plain; Change _ _ new; Mount _ _ plain] verifying (mkMounted nat 1%nat false false) eq_refl).
  assert (1%nat = 2%nat); [|discriminate]. apply H.
  - intros o [E|[E|[E|[]]]]; try discriminate; injection E as <-; reflexivity.
  - intros a b [<-|[<-|[]]] [<-|[<-|[]]] E; cbn in E |- *; congruence || lia.
  - reflexivity.
Qed.

(** Not so, wanted: by default a mount shows what the archive holds, if every change gave it another time stamp and another size. *)
Theorem C107_default_refuted : ~ forall (f : file nat) (h : list (event nat nat)) (o : options nat) m,
    every_mount (fun o' => o_args _ o' = o_args _ o) h ->
    (forall a b, In a (archives f h) -> In b (archives f h) -> f_mtime _ a = f_mtime _ b \/ f_size _ a = f_size _ b -> f_content _ a = f_content _ b) ->
    fst (mount nat nat nat Nat.eqb (fun _ c => Ok c) (fun _ _ => true) (archive_after f h)
           (snd (run nat nat nat Nat.eqb (fun _ c => Ok c) (fun _ _ => true) (f, None) h)) o) = Ok m ->
    r_rows _ m = f_content _ (archive_after f h).
Proof.
  intros H. set (old := mkFile nat 1%nat 100 1000). set (new := mkFile nat 2%nat 200 2000).
  set (plain := mkOptions nat false false 0%nat ($"zip") true false).
  specialize (H old [Mount _ _ plain; Change _ _ new] plain (mkMounted nat 1%nat false false)).
  assert (1%nat = 2%nat); [|discriminate]. apply H.
  - intros o [E|[E|[]]]; try discriminate; injection E as <-; reflexivity.
  - intros a b [<-|[<-|[]]] [<-|[<-|[]]] [E|E]; cbn in E |- *; congruence || lia.
  - reflexivity.
Qed.

(** Not so, wanted: a table that was made with other arguments than those of this mount is not shown without a warning.  The warning comes
    once; that mount stores its own arguments with the old table. *)
Theorem C107_warned_refuted : ~ forall (f : file nat) (h : list (event nat nat)) (o : options nat) m,
    mounts_only h ->
    fst (mount nat nat nat Nat.eqb (fun g _ => Ok g) (fun _ _ => true) (archive_after f h)
           (snd (run nat nat nat Nat.eqb (fun g _ => Ok g) (fun _ _ => true) (f, None) h)) o) = Ok m ->
    r_rows _ m = o_args _ o \/ r_warned _ m = true.
Proof.
  intros H. set (f := mkFile nat 1%nat 100 1000).
  set (first := mkOptions nat false false 7%nat ($"zip") true false). set (second := mkOptions nat false false 8%nat ($"zip") true false).
  specialize (H f [Mount _ _ first; Mount _ _ second] second (mkMounted nat 7%nat false false)).
  destruct H as [E|E]; [|reflexivity|discriminate|discriminate]. intros e [<-|[<-|[]]]; eauto.
Qed.

(** An index of an older version: the first file tells whether it is used. *)
Example C107_old_case :
  let f := mkFile nat 1%nat 100 1000 in let i := mkIndex nat nat 4%nat (mkMeta nat None None None) in let p := mkOptions nat true false 0%nat ($"zip") true false in
  let go ok := fst (mount nat nat nat Nat.eqb (fun _ c => Ok c) (fun _ _ => ok) f (Some i) p) in
  go true = Ok (mkMounted nat 4%nat false false) /\ go false = Ok (mkMounted nat 1%nat true false).
Proof. split; reflexivity. Qed.

(** The hypotheses are met: a verified history of three states of the archive, and a shrunken archive. *)
Example C107_cases :
  let f := mkFile nat 1%nat 100 1000 in let f2 := mkFile nat 2%nat 150 2000 in let f3 := mkFile nat 3%nat 120 3000 in
  let v := mkOptions nat true false 0%nat ($"zip") true false in let p := mkOptions nat false false 0%nat ($"zip") true false in
  let go h o := fst (mount nat nat nat Nat.eqb (fun _ c => Ok c) (fun _ _ => true) (archive_after f h)
           (snd (run nat nat nat Nat.eqb (fun _ c => Ok c) (fun _ _ => true) (f, None) h)) o) in
  go [Mount _ _ v; Change _ _ f2; Mount _ _ v] v = Ok (mkMounted nat 2%nat false false) /\
  go [Mount _ _ v; Change _ _ f2; Mount _ _ v; Change _ _ f3] v = Ok (mkMounted nat 3%nat true false) /\
  go [Mount _ _ p; Change _ _ f2; Mount _ _ p; Change _ _ f3] p = Ok (mkMounted nat 3%nat true false) /\
  go [Mount _ _ p; Change _ _ f2] p = Ok (mkMounted nat 1%nat false false) /\
  go [Mount _ _ p] (mkOptions nat false false 5%nat ($"zip") true false) = Ok (mkMounted nat 1%nat false true) /\
  go [Mount _ _ p] (mkOptions nat false false 0%nat ($"libarchive") true false) = Err MismatchingIndexError /\
  go [] (mkOptions nat false false 0%nat ($"zip") true true) = Err RatarmountError /\
  go [Mount _ _ p; Change _ _ f2] (mkOptions nat false true 0%nat ($"zip") true false) = Ok (mkMounted nat 2%nat true false).
Proof. repeat split; reflexivity. Qed.

Print Assumptions C107_only_past_contents.
Print Assumptions C107_unchanged.
Print Assumptions C107_verified.
Print Assumptions C107_shrunk.
Print Assumptions C107_recreate.
Print Assumptions C107_reused.
Print Assumptions C107_backend.
Print Assumptions C107_read_only.
Print Assumptions C107_old_index.
Print Assumptions C107_verify_refuted.
Print Assumptions C107_default_refuted.
Print Assumptions C107_warned_refuted.
