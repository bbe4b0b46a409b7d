From Verif Require Import PyBase PyDict Stencil_Model MemFile_Spec Stencil_Spec Stencil_Proofs Joined_Proofs
  Lru_Model Lru_Spec Lru_Proofs Block_Model.
Local Open Scope Z_scope.

Section Proofs.
  Context {A : Type}.
  Variable blocks : list (list A).
  Variable par : nat.
  Variable count : nat -> nat -> nat.

  Notation stream := (concat blocks).
  Notation bounds := (cumsum 0 (map len blocks)).
  Notation job_of := (job_of bounds).
  Notation block_size := (block_size bounds).

  Lemma bounds_length : length bounds = S (length blocks).
  Proof. now rewrite cumsum_length, map_length. Qed.

  Definition bnd (n : nat) : Z := sumZ (firstn n (map (@len A) blocks)).

  Lemma nth_bounds n : (n <= length blocks)%nat -> nth n bounds 0 = bnd n.
  Proof. intros H. rewrite nth_cumsum by (now rewrite map_length). unfold bnd. lia. Qed.

  Lemma bnd_step n : (n < length blocks)%nat -> bnd (S n) = bnd n + len (nth n blocks []).
  Proof.
    intros H. unfold bnd. rewrite sumZ_firstn_step by (now rewrite map_length).
    rewrite (nth_map_f _ blocks n []) by exact H. reflexivity.
  Qed.

  Lemma lens_nonneg x : In x (map (@len A) blocks) -> 0 <= x.
  Proof. intros H. apply in_map_iff in H as (b & <- & _). apply len_nonneg. Qed.

  Lemma bnd_mono n m : (n <= m)%nat -> bnd n <= bnd m.
  Proof. intros H. apply sumZ_firstn_mono; [apply lens_nonneg|exact H]. Qed.

  Lemma bnd_nonneg n : 0 <= bnd n.
  Proof. replace 0 with (bnd 0) by reflexivity. apply bnd_mono; lia. Qed.

  Lemma bnd_last : bnd (length blocks) = len stream.
  Proof. unfold bnd. rewrite firstn_all2 by (rewrite map_length; lia). now rewrite len_concat. Qed.

  Lemma block_size_eq n : (n < length blocks)%nat -> block_size n = len (nth n blocks []).
  Proof.
    intros H. unfold Block_Model.block_size. rewrite bounds_length. destruct (Nat.leb_spec (S (length blocks)) (n + 1)); [lia|].
    rewrite !nth_bounds by lia. rewrite Nat.add_1_r, bnd_step by exact H. lia.
  Qed.

  Lemma job_get_of n : (n < length blocks)%nat -> job_get stream (job_of n) = zslice stream (bnd n) (len (nth n blocks [])).
  Proof. intros H. unfold job_get, Block_Model.job_of. cbn [fst snd]. now rewrite nth_bounds, block_size_eq by lia. Qed.

  (** The cache is well-formed and only holds jobs of the right block. *)
  Definition cache_ok (c : lru nat job) : Prop :=
    exists l, rep Nat.eqb (2 * (par + 1)) l c /\ (forall k j, find Nat.eqb k l = Some j -> j = job_of k) /\
      (length l <= 2 * (par + 1))%nat.

  Lemma contains_find c l n : rep Nat.eqb (2 * (par + 1)) l c ->
    lru_contains Nat.eqb c n = match (@find nat job Nat.eqb n l) with Some _ => true | None => false end.
  Proof. intros H. unfold lru_contains, dmem. now rewrite (rp_get _ _ _ _ H). Qed.

  Lemma getitem_ok c n : cache_ok c -> lru_contains Nat.eqb c n = true ->
    exists c', lru_getitem Nat.eqb c n = (Ok (job_of n), c') /\ cache_ok c'.
  Proof.
    intros (l & Hr & Hj & Hb) Hc. rewrite (contains_find c l n Hr) in Hc.
    destruct (find Nat.eqb n l) as [j|] eqn:Ef; [|discriminate].
    destruct (step_rep Nat.eqb nat_eqb_spec _ l c (LGetItem n) Hr) as (c' & E & Hr'); [congruence|].
    pose proof (ideal_bounded Nat.eqb nat_eqb_spec _ l (LGetItem n) (rp_nd _ _ _ _ Hr) Hb) as Hb'.
    cbn [lru_step ideal_step] in E, Hr', Hb'. rewrite Ef in E, Hr', Hb'. cbn [fst snd] in E, Hr', Hb'.
    destruct (lru_getitem Nat.eqb c n) as [[v|e] c''] eqn:Eg; inversion E; subst.
    exists c'. split; [now rewrite (Hj n j Ef)|].
    eexists; split; [exact Hr'|]. split; [|exact Hb']. intros k j' Hk. rewrite (find_use Nat.eqb nat_eqb_spec) in Hk.
    destruct (Nat.eqb_spec k n) as [->|]; [inversion Hk; subst; now apply Hj|now apply Hj].
  Qed.

  Lemma find_skipn (l : @entries nat job) m k j : NoDup (map fst l) ->
    find Nat.eqb k (skipn m l) = Some j -> find Nat.eqb k l = Some j.
  Proof.
    intros Hnd H. rewrite find_dget in *. apply (NoDup_dget Nat.eqb nat_eqb_spec); [exact Hnd|].
    apply (dget_Some_In Nat.eqb nat_eqb_spec) in H.
    rewrite <- (firstn_skipn m l). apply in_or_app. now right.
  Qed.

  Lemma set_ok c n : cache_ok c -> exists c', lru_set Nat.eqb c n (job_of n) = (Ok tt, c') /\ cache_ok c'.
  Proof.
    intros (l & Hr & Hj & Hb).
    destruct (step_rep Nat.eqb nat_eqb_spec _ l c (LSet n (job_of n)) Hr I) as (c' & E & Hr').
    pose proof (ideal_bounded Nat.eqb nat_eqb_spec _ l (LSet n (job_of n)) (rp_nd _ _ _ _ Hr) Hb) as Hb'.
    cbn [lru_step ideal_step fst snd] in E, Hr', Hb'.
    destruct (lru_set Nat.eqb c n (job_of n)) as [[[]|e] c''] eqn:Eg; inversion E; subst.
    exists c'. split; [reflexivity|]. eexists; split; [exact Hr'|]. split; [|exact Hb'].
    intros k j Hk. unfold newest in Hk. apply find_skipn in Hk; [|apply (NoDup_use Nat.eqb nat_eqb_spec), (rp_nd _ _ _ _ Hr)].
    rewrite (find_use Nat.eqb nat_eqb_spec) in Hk.
    destruct (Nat.eqb_spec k n) as [->|]; [now inversion Hk|now apply Hj].
  Qed.

  Lemma fetch_ok c n pending : cache_ok c ->
    exists p' c', fetch bounds c n pending = (Ok (job_of n, p'), c') /\ cache_ok c'.
  Proof.
    intros H. unfold fetch. destruct (lru_contains Nat.eqb c n) eqn:E.
    - destruct (getitem_ok c n H E) as (c' & -> & H'). eauto.
    - destruct (set_ok c n H) as (c' & -> & H'). eauto.
  Qed.

  Lemma prefetch_ok todo c pending : cache_ok c -> exists c', prefetch_loop bounds par c todo pending = (Ok tt, c') /\ cache_ok c'.
  Proof.
    revert c pending. induction todo as [|n r IH]; intros c pending H; cbn [prefetch_loop]; [eauto|].
    destruct (_ && _ && _); [|auto]. destruct (set_ok c n H) as (c' & -> & H'). auto.
  Qed.

  (** The fetch loop and the concatenation together produce the requested slice. *)
  Lemma fetch_loop_spec fuel st n size pending acc :
    cache_ok (b_cache st) -> (n < length blocks)%nat -> (length blocks - n <= fuel)%nat ->
    bnd n <= b_offset st <= bnd (S n) -> 0 <= size ->
    exists js s' p' st', fetch_loop bounds fuel st n size (bnd (S n) - b_offset st) pending acc = (Ok (acc ++ js, s', p'), st') /\
      cache_ok (b_cache st') /\ js <> [] /\
      concat_blocks stream (b_offset st - bnd n) s' js = zslice stream (b_offset st) size /\
      b_offset st' = b_offset st + len (zslice stream (b_offset st) size).
  Proof.
    revert st n size pending acc. induction fuel as [|fuel IH]; intros st n size pending acc Hc Hn Hf Ho Hs; [lia|].
    cbn [fetch_loop]. destruct (fetch_ok (b_cache st) n pending Hc) as (p' & c' & -> & Hc').
    assert (Hst : bnd (S n) <= len stream) by (rewrite <- bnd_last; apply bnd_mono; lia).
    pose proof (bnd_step n Hn) as Hstep. pose proof (bnd_nonneg n) as Hb0.
    assert (Hdec : forall z, (0 <= z)%Z ->
              (let d := job_get stream (job_of n) in
               let d := if 0 <? b_offset st - bnd n then py_slice d (b_offset st - bnd n) (len d) else d in
               d) = zslice stream (b_offset st) (bnd (S n) - b_offset st)).
    { intros _ _. cbv zeta. rewrite job_get_of by exact Hn.
      destruct (Z.ltb_spec 0 (b_offset st - bnd n)) as [Hp|Hp].
      - rewrite py_slice_zslice by (rewrite ?len_zslice; lia). rewrite len_zslice by lia.
        rewrite zslice_zslice by lia. f_equal; lia.
      - f_equal; lia. }
    specialize (Hdec 0 ltac:(lia)). cbv zeta in Hdec.
    assert (Hlast : forall z, 0 <= z -> concat_blocks stream (b_offset st - bnd n) z [job_of n] =
                zslice stream (b_offset st) (Z.min z (bnd (S n) - b_offset st))).
    { intros z Hz. cbn [concat_blocks]. rewrite app_nil_r. rewrite Hdec.
      rewrite py_slice_zslice by lia. rewrite Z.sub_0_r.
      destruct (Z.le_gt_cases z (bnd (S n) - b_offset st)).
      - rewrite zslice_zslice by lia. f_equal; lia.
      - rewrite (zslice_clip (zslice stream _ _) 0 z) by lia. rewrite len_zslice by lia.
        rewrite zslice_zslice by lia. f_equal; lia. }
    destruct (Z.leb_spec size (bnd (S n) - b_offset st)) as [Hle|Hgt].
    - exists [job_of n], size, p'. eexists. split; [reflexivity|]. cbn [b_cache b_offset]. split; [exact Hc'|].
      split; [discriminate|]. split; [rewrite Hlast by lia; f_equal; lia|]. rewrite len_zslice by lia. lia.
    - rewrite bounds_length. destruct (Nat.leb_spec (S (length blocks)) (n + 1 + 1)) as [Hend|Hmore].
      + exists [job_of n], size, p'. eexists. split; [reflexivity|]. cbn [b_cache b_offset]. split; [exact Hc'|].
        split; [discriminate|].
        assert (Elast : bnd (S n) = len stream) by (rewrite <- bnd_last; f_equal; lia).
        split.
        * rewrite Hlast by lia. rewrite (zslice_clip stream (b_offset st) size) by lia. f_equal; lia.
        * rewrite len_zslice by lia. lia.
      + set (st1 := mkBR _ _ _ _).
        assert (Eo : b_offset st1 = bnd (S n)) by (unfold st1; cbn [b_offset]; lia).
        rewrite Nat.add_1_r. rewrite nth_bounds by lia. rewrite block_size_eq by lia.
        replace (len (nth (S n) blocks []) - (b_offset st1 - bnd (S n))) with (bnd (S (S n)) - b_offset st1)
          by (rewrite (bnd_step (S n)) by lia; lia).
        destruct (IH st1 (S n) (size - (bnd (S n) - b_offset st)) p' (acc ++ [job_of n]))
          as (js & s' & p'' & st' & E & E1 & E2 & E3 & E4); try lia; auto.
        { rewrite Eo. pose proof (bnd_mono (S n) (S (S n)) ltac:(lia)). lia. }
        rewrite E. exists (job_of n :: js), s', p'', st'. split; [now rewrite <- app_assoc|]. split; [exact E1|].
        split; [discriminate|].
        assert (Esplit : zslice stream (b_offset st) size =
                  zslice stream (b_offset st) (bnd (S n) - b_offset st) ++
                  zslice stream (bnd (S n)) (size - (bnd (S n) - b_offset st))).
        { replace size with ((bnd (S n) - b_offset st) + (size - (bnd (S n) - b_offset st))) at 1 by lia.
          rewrite zslice_add by lia. f_equal. f_equal. lia. }
        rewrite Eo in E3, E4. split.
        * cbn [concat_blocks]. destruct js as [|j0 jr] eqn:Ejs; [congruence|]. rewrite <- Ejs in *.
          rewrite Hdec. rewrite Esplit. f_equal. rewrite <- E3. f_equal. lia.
        * rewrite E4, Esplit, len_app. rewrite (len_zslice stream (b_offset st)) by lia. lia.
  Qed.

  Lemma bounds_sorted : sortedZ bounds.
  Proof. apply cumsum_sorted, lens_nonneg. Qed.

  Lemma find_block_spec off : 0 <= off ->
    match find_block bounds off with
    | Some n => (n < length blocks)%nat /\ bnd n <= off < bnd (S n)
    | None => len stream <= off
    end.
  Proof.
    intros Hoff. unfold find_block.
    pose proof (bisect_right_spec bounds off bounds_sorted) as (H1 & H2 & H3). rewrite bounds_length in *.
    destruct (bisect_right bounds off) as [|n].
    - specialize (H3 O ltac:(lia) ltac:(lia)). rewrite nth_bounds in H3 by lia. cbn in H3. lia.
    - destruct (Nat.ltb_spec (n + 1) (S (length blocks))).
      + split; [lia|]. specialize (H2 n ltac:(lia)). specialize (H3 (S n) ltac:(lia) ltac:(lia)).
        rewrite nth_bounds in H2, H3 by lia. lia.
      + specialize (H2 n ltac:(lia)). rewrite nth_bounds in H2 by lia. rewrite <- bnd_last.
        replace (length blocks) with n by lia. lia.
  Qed.

  Lemma br_read_spec st ready size : cache_ok (b_cache st) -> 0 <= b_offset st -> 0 <= size ->
    exists st', br_read stream bounds par count st ready size = (Ok (zslice stream (b_offset st) size), st') /\
      cache_ok (b_cache st') /\ b_offset st' = b_offset st + len (zslice stream (b_offset st) size).
  Proof.
    intros Hc Hoff Hsize. unfold br_read. pose proof (find_block_spec (b_offset st) Hoff) as Hfb.
    destruct (find_block bounds (b_offset st)) as [n|].
    - destruct Hfb as [Hn Ho]. rewrite nth_bounds, block_size_eq by lia.
      pose proof (bnd_step n Hn) as Hstep. pose proof (bnd_nonneg n).
      assert (Hst : bnd (S n) <= len stream) by (rewrite <- bnd_last; apply bnd_mono; lia).
      destruct (lru_contains Nat.eqb (b_cache st) n && (size <=? len (nth n blocks []) - (b_offset st - bnd n)) && Nat.eqb (b_last st) n) eqn:E.
      + apply andb_prop in E as [E _]. apply andb_prop in E as [Ec Esz].
        destruct (getitem_ok _ n Hc Ec) as (c' & -> & Hc').
        rewrite job_get_of by exact Hn. rewrite py_slice_zslice by lia.
        replace (b_offset st - bnd n + size - (b_offset st - bnd n)) with size by lia.
        apply Z.leb_le in Esz. rewrite zslice_zslice by lia.
        replace (bnd n + (b_offset st - bnd n)) with (b_offset st) by lia.
        eexists; split; [reflexivity|]. cbn; auto.
      + replace (len (nth n blocks []) - (b_offset st - bnd n)) with (bnd (S n) - b_offset st) by lia.
        destruct (fetch_loop_spec (length bounds) st n size
                    (length (filter (fun '(k, _) => negb (ready k)) (l_data (b_cache st)))) [])
          as (js & s' & p' & st' & -> & E1 & E2 & E3 & E4); auto; try lia.
        { rewrite bounds_length; lia. }
        destruct (prefetch_ok (pf_prefetch count 4 par (b_fetched st')) (b_cache st') p' E1) as (c'' & -> & Hc'').
        cbn [app]. rewrite E3. eexists; split; [reflexivity|]. cbn; auto.
    - rewrite zslice_nil_ge by lia. rewrite len_nil, Z.add_0_r. eauto.
  Qed.

  Lemma last_bounds : lastZ bounds = len stream.
  Proof. rewrite last_cumsum, len_concat. lia. Qed.

  Lemma br_run_spec cs st :
    cache_ok (b_cache st) -> 0 <= b_offset st ->
    Forall (fun x => match fst x with CRead n => 0 <= n | _ => True end) cs ->
    no_negative_seek stream (b_offset st) (map fst cs) ->
    map to_answer (br_run stream bounds par count st (map (fun x => (to_op (fst x), snd x)) cs)) =
    mem_run stream (b_offset st) (map fst cs).
  Proof.
    revert st. induction cs as [|[c rdy] r IH]; intros st Hc Hoff Hpos Hneg; [reflexivity|].
    inversion Hpos as [|? ? Hp Hpr]; subst. cbn [map fst snd no_negative_seek] in *. destruct Hneg as [Ht Hr].
    cbn [br_run mem_run]. unfold br_step. cbn [fst snd]. destruct c as [o w|n|]; cbn [to_op].
    - unfold br_seek. cbn [mem_call] in *.
      set (new := match to_whence w with
                  | SEEK_SET => o | SEEK_CUR => b_offset st + o | SEEK_END => lastZ bounds + o end).
      assert (En : new = target stream (b_offset st) o w).
      { unfold new, target. destruct w; cbn [to_whence]; try reflexivity. rewrite last_bounds. reflexivity. }
      rewrite <- En in *. cbv zeta. destruct (Z.ltb_spec new 0); [lia|].
      cbn [map to_answer]. f_equal. apply IH; auto.
    - destruct (br_read_spec st rdy n Hc Hoff Hp) as (st' & -> & Hc' & Ho').
      cbn [mem_call] in *. destruct (Z.ltb_spec n 0); [cbn in Hp; lia|].
      cbn [map to_answer]. f_equal.
      change (bytes_at stream (b_offset st) n) with (zslice stream (b_offset st) n) in *.
      change (Z.of_nat (length (zslice stream (b_offset st) n))) with (len (zslice stream (b_offset st) n)) in *.
      rewrite <- Ho' in *. apply IH; auto. rewrite Ho'. pose proof (len_nonneg (zslice stream (b_offset st) n)). lia.
    - cbn [map to_answer mem_call] in *. f_equal. apply IH; auto.
  Qed.

  Lemma br_init_ok : cache_ok (b_cache (br_init par)).
  Proof. exists []. split; [apply rep_init|]. split; [discriminate|cbn; lia]. Qed.
End Proofs.

Lemma block_history {A} (blocks : list (list A)) par count cs :
  Forall (fun x => match fst x with CRead n => 0 <= n | _ => True end) cs ->
  no_negative_seek (concat blocks) 0 (map fst cs) ->
  map to_answer (br_run (concat blocks) (cumsum 0 (map len blocks)) par count (br_init par)
                   (map (fun x => (to_op (fst x), snd x)) cs)) =
  mem_run (concat blocks) 0 (map fst cs).
Proof. intros H1 H2. apply (br_run_spec blocks par count cs (br_init par)); auto using br_init_ok. cbn; lia. Qed.

Lemma block_read_all {A} (block : list A) par count ready : block <> [] ->
  br_run (concat [block]) (cumsum 0 (map len [block])) par count (br_init par) [(Read (-1), ready); (Tell, ready)] =
  [OData (removelast block); OPos (-1)].
Proof.
  intros Hne.
  assert (Hpos : 0 < len block) by (destruct block; [congruence|unfold len; cbn [length]; lia]).
  assert (Eb : cumsum 0 (map len [block]) = [0; len block]) by reflexivity.
  assert (Es : concat [block] = block) by (cbn; apply app_nil_r). rewrite Es, Eb.
  cbn [br_run]. unfold br_step at 1. cbn [fst snd]. unfold br_read.
  assert (Ef : find_block [0; len block] (b_offset (br_init par)) = Some O).
  { pose proof (find_block_spec [block] par count 0 (Z.le_refl 0)) as H. rewrite Eb in H. cbn [b_offset br_init].
    destruct (find_block [0; len block] 0) as [n|].
    - destruct H as [H _]. cbn in H. f_equal; lia.
    - rewrite Es in H. lia. }
  rewrite Ef. cbn [nth].
  assert (E2 : b_cache (br_init par) = lru_init (2 * (par + 1))) by reflexivity.
  rewrite E2. cbn [lru_contains lru_init l_data dmem dget find andb]. 
  unfold lru_contains, dmem. cbn [l_data lru_init dget andb].
  cbn [fetch_loop length]. rewrite E2.
  assert (Hc : cache_ok [block] par (lru_init (2 * (par + 1)))) by (rewrite <- E2; apply (br_init_ok [block] par count)).
  match goal with |- context [fetch _ _ O ?p] => destruct (fetch_ok [block] par (lru_init (2 * (par + 1))) O p Hc) as (p' & c' & Efe & Hc') end.
  rewrite Eb in Efe. rewrite Efe.
  assert (Ebs : block_size [0; len block] 0 = len block) by (unfold block_size; cbn [length Nat.leb Nat.add nth]; lia).
  rewrite Ebs. cbn [b_offset br_init]. rewrite !Z.sub_0_r.
  destruct (Z.leb_spec (-1) (len block)); [|lia].
  cbn [b_cache b_fetched b_offset b_last].
  pose proof (prefetch_ok [block] par) as Hpf. rewrite Eb in Hpf.
  match goal with |- context [prefetch_loop _ _ _ ?t ?p] => destruct (Hpf t c' p' Hc') as (c'' & E & _) end.
  rewrite E. cbn [app concat_blocks]. rewrite app_nil_r.
  replace (Z.min (len block) (-1)) with (-1) by lia. cbn [b_offset br_step fst]. f_equal.
  f_equal. unfold job_get, job_of. cbn [fst snd nth]. rewrite Ebs.
  replace (0 <? 0) with false by reflexivity.
  assert (Ez : zslice block 0 (len block) = block) by (unfold zslice; cbn; apply ztake_all; lia).
  rewrite Ez. unfold py_slice, py_index. cbn [Z.ltb Z.compare].
  replace (Z.min 0 (len block)) with 0 by lia.
  destruct (exists_last Hne) as (l & x & ->). rewrite removelast_last.
  rewrite len_app in *. change (len [x]) with 1 in *. pose proof (len_nonneg l).
  replace (Z.max 0 (Z.max 0 (-1 + (len l + 1)) - 0)) with (len l) by lia.
  rewrite zslice_app_l by lia. unfold zslice; cbn; apply ztake_all; lia.
Qed.
