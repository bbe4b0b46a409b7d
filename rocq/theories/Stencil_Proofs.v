From Verif Require Import PyBase Stencil_Model MemFile_Spec Stencil_Spec.
Local Open Scope Z_scope.

Lemma cumsum_length sizes acc : length (cumsum acc sizes) = S (length sizes).
Proof. revert acc; induction sizes as [|s r IH]; intros acc; cbn [cumsum length]; [reflexivity|]. now rewrite IH. Qed.

Fixpoint sumZ (l : list Z) : Z := match l with [] => 0 | x :: r => x + sumZ r end.

Lemma nth_cumsum sizes acc i : (i <= length sizes)%nat -> nth i (cumsum acc sizes) 0 = acc + sumZ (firstn i sizes).
Proof.
  revert acc i; induction sizes as [|s r IH]; intros acc i Hi.
  - destruct i; cbn [cumsum nth firstn sumZ length] in *; lia.
  - destruct i as [|i]; cbn [cumsum nth firstn sumZ length] in *; [lia|]. rewrite IH by lia. lia.
Qed.

Lemma last_cumsum sizes acc : lastZ (cumsum acc sizes) = acc + sumZ sizes.
Proof.
  revert acc; induction sizes as [|s r IH]; intros acc.
  - cbn [cumsum sumZ]; unfold lastZ; cbn [last]; lia.
  - change (cumsum acc (s :: r)) with (acc :: cumsum (acc + s) r).
    transitivity (lastZ (cumsum (acc + s) r)).
    + unfold lastZ. pose proof (cumsum_length r (acc + s)) as E. destruct (cumsum (acc + s) r); [discriminate|reflexivity].
    + rewrite IH. cbn [sumZ]; lia.
Qed.

Lemma sumZ_firstn_step sizes i : (i < length sizes)%nat ->
  sumZ (firstn (S i) sizes) = sumZ (firstn i sizes) + nth i sizes 0.
Proof.
  revert i; induction sizes as [|s r IH]; intros i Hi; cbn [length] in Hi; [lia|].
  destruct i as [|i]; cbn [firstn sumZ nth].
  - lia.
  - cbn [firstn] in IH. rewrite <- Z.add_assoc, <- IH by lia. reflexivity.
Qed.

Lemma sumZ_firstn_mono sizes i j : (forall x, In x sizes -> 0 <= x) -> (i <= j)%nat ->
  sumZ (firstn i sizes) <= sumZ (firstn j sizes).
Proof.
  revert i j; induction sizes as [|s r IH]; intros i j Hp Hij; [rewrite !firstn_nil; lia|].
  assert (0 <= s) by (apply Hp; now left).
  destruct i as [|i], j as [|j]; cbn [firstn sumZ]; try lia.
  - specialize (IH 0%nat j). cbn [firstn sumZ] in IH.
    assert (0 <= sumZ (firstn j r)) by (apply IH; [intros; apply Hp; now right|lia]). lia.
  - assert (sumZ (firstn i r) <= sumZ (firstn j r)) by (apply IH; [intros; apply Hp; now right|lia]). lia.
Qed.

Lemma cumsum_sorted sizes : (forall x, In x sizes -> 0 <= x) -> sortedZ (cumsum 0 sizes).
Proof.
  intros Hp i j Hij Hj. rewrite cumsum_length in Hj. rewrite !nth_cumsum by lia.
  pose proof (sumZ_firstn_mono sizes i j Hp Hij). lia.
Qed.

Definition size_of (c : stencil) : Z := snd c.

Definition selected (cuts : list stencil) : list stencil := filter (fun '(_, _, s) => 0 <? s) cuts.

Lemma selected_pos cuts : Forall (fun c => 0 < size_of c) (selected cuts).
Proof. rewrite Forall_forall. intros [[f o] n] Hc. apply filter_In in Hc as [_ Hc]. cbn. lia. Qed.

Section Proofs.
  Context {A : Type}.
  Variable fc : nat -> list A.


  Record WF (sel : list stencil) (s : sfile) : Prop := {
    wf_objs : sf_objs s = map (fun '(f, _, _) => f) sel;
    wf_offs : sf_offsets s = map (fun '(_, o, _) => o) sel;
    wf_sizes : sf_sizes s = map (fun '(_, _, s) => s) sel;
    wf_cum : sf_cumsizes s = cumsum 0 (sf_sizes s) }.

  Lemma joined_selected cuts : joined fc (selected cuts) = joined fc cuts.
  Proof.
    unfold joined, selected. induction cuts as [|[[f o] n] r IH]; [reflexivity|].
    cbn [filter map concat]. destruct (Z.ltb_spec 0 n) as [H|H]; cbn [map concat]; rewrite IH; [reflexivity|].
    unfold bytes_at. replace (Z.to_nat n) with 0%nat by lia. reflexivity.
  Qed.

  Lemma joined_len sel : Forall (inside fc) sel -> len (joined fc sel) = sumZ (map size_of sel).
  Proof.
    unfold joined. induction 1 as [|[[f o] n] r H _ IH]; [reflexivity|].
    cbn [map concat sumZ]. rewrite len_app, IH. f_equal.
    destruct H as (Ho & Hn & Hle).
    change (bytes_at (fc f) o n) with (zslice (fc f) o n).
    rewrite len_zslice by lia. change (Z.of_nat (length (fc f))) with (len (fc f)) in Hle. cbn [size_of snd]; lia.
  Qed.

  Lemma joined_split sel i : (i < length sel)%nat ->
    joined fc sel = joined fc (firstn i sel) ++
      (let '(f, o, n) := nth i sel (O, 0, 0) in bytes_at (fc f) o n) ++ joined fc (skipn (S i) sel).
  Proof.
    revert i; induction sel as [|c r IH]; intros i Hi; cbn [length] in Hi; [lia|].
    destruct i as [|i].
    - destruct c as [[f o] n]. reflexivity.
    - cbn [firstn nth]. change (skipn (S (S i)) (c :: r)) with (skipn (S i) r).
      destruct c as [[f o] n].
      change (joined fc ((f, o, n) :: r)) with (bytes_at (fc f) o n ++ joined fc r).
      change (joined fc ((f, o, n) :: firstn i r)) with (bytes_at (fc f) o n ++ joined fc (firstn i r)).
      rewrite <- app_assoc. f_equal. apply IH; lia.
  Qed.

  Lemma nth_map_f {X Y} (g : X -> Y) l i dx dy : (i < length l)%nat -> nth i (map g l) dy = g (nth i l dx).
  Proof. intros H. rewrite (nth_indep _ dy (g dx)) by (now rewrite map_length). apply map_nth. Qed.

  Lemma Forall_firstn' {X} (P : X -> Prop) l n : Forall P l -> Forall P (firstn n l).
  Proof. intros H; revert n; induction H; intros [|n]; cbn [firstn]; constructor; auto. Qed.

  Lemma size_sum_eq sel : sumZ (map size_of sel) = sumZ (map (fun '(_, _, s) => s) sel).
  Proof. induction sel as [|[[? ?] ?] r IH]; cbn; [reflexivity|]. now rewrite IH. Qed.

  (** One step of the read loop returns a prefix of what is left and is empty only at the end. *)
  Lemma sf_read1_spec sel s pos size :
    WF sel s -> Forall (inside fc) sel -> Forall (fun c => 0 < size_of c) sel ->
    0 <= sf_offset s -> 0 < size ->
    exists tmp pos', sf_read1 fc s pos size = (Ok tmp, set_offset s (sf_offset s + len tmp), pos') /\
      tmp = zslice (joined fc sel) (sf_offset s) (len tmp) /\ len tmp <= size /\
      (tmp = [] -> len (joined fc sel) <= sf_offset s).
  Proof.
    unfold stencil in *. intros [Hob Hof Hsz Hcum] Hin Hpos Hoff Hsize.
    unfold sf_read1. destruct (Z.ltb_spec size 0); [lia|].
    unfold find_stencil. destruct (Z.ltb_spec (sf_offset s) 0); [lia|].
    assert (Hnn : forall x, In x (sf_sizes s) -> 0 <= x).
    { rewrite Hsz. intros x Hx. apply in_map_iff in Hx as ([[f o] n] & <- & Hc).
      rewrite Forall_forall in Hpos. specialize (Hpos _ Hc). cbn in Hpos; lia. }
    rewrite Hcum.
    pose proof (bisect_left_spec _ (sf_offset s + 1) (cumsum_sorted _ Hnn)) as (Hb1 & Hb2 & Hb3).
    set (i1 := bisect_left _ _) in *. rewrite cumsum_length in Hb1, Hb3.
    assert (Hlen : length (sf_sizes s) = length sel) by (rewrite Hsz; apply map_length).
    destruct i1 as [|i] eqn:Ei.
    { exfalso. specialize (Hb3 O). rewrite nth_cumsum in Hb3 by lia. cbn in Hb3. lia. }
    destruct (Nat.leb_spec (length (sf_sizes s)) i) as [Hi|Hi].
    - exists [], pos. rewrite len_nil, Z.add_0_r. split; [|split; [|split]]; try lia.
      + repeat f_equal. destruct s; reflexivity.
      + symmetry; apply zslice_le0; lia.
      + intros _. specialize (Hb2 i). rewrite nth_cumsum in Hb2 by lia.
        rewrite firstn_all2 in Hb2 by lia. rewrite joined_len by exact Hin.
        rewrite size_sum_eq, <- Hsz. lia.
    - assert (Hlo : nth i (cumsum 0 (sf_sizes s)) 0 <= sf_offset s) by (specialize (Hb2 i); lia).
      assert (Hhi : sf_offset s < nth (S i) (cumsum 0 (sf_sizes s)) 0) by (specialize (Hb3 (S i)); lia).
      rewrite nth_cumsum in Hlo, Hhi by lia. rewrite nth_cumsum by lia.
      rewrite sumZ_firstn_step in Hhi by lia.
      set (before := sumZ (firstn i (sf_sizes s))) in *.
      destruct (Z.ltb_spec (sf_offset s - (0 + before)) 0); [lia|].
      destruct (Z.leb_spec (nth i (sf_sizes s) 0) (sf_offset s - (0 + before))); [lia|].
      rewrite upd_same.
      set (c := nth i sel (O, 0, 0)) in *.
      assert (Hc : inside fc c) by (rewrite Forall_forall in Hin; apply Hin, nth_In; lia).
      destruct c as [[f o] n] eqn:Ec.
      assert (E1 : nth i (sf_objs s) O = f).
      { rewrite Hob, (nth_map_f _ sel i (O, 0, 0)) by (rewrite <- Hlen; exact Hi). fold c. now rewrite Ec. }
      assert (E2 : nth i (sf_offsets s) 0 = o).
      { rewrite Hof, (nth_map_f _ sel i (O, 0, 0)) by (rewrite <- Hlen; exact Hi). fold c. now rewrite Ec. }
      assert (E3 : nth i (sf_sizes s) 0 = n).
      { rewrite Hsz, (nth_map_f _ sel i (O, 0, 0)) by (rewrite <- Hlen; exact Hi). fold c. now rewrite Ec. }
      rewrite E1, E2, E3 in *.
      destruct Hc as (Hco & Hcn & Hcle). change (Z.of_nat (length (fc f))) with (len (fc f)) in Hcle.
      set (ins := sf_offset s - (0 + before)) in *.
      set (rd := Z.min size (n - ins)).
      unfold file_read. destruct (Z.ltb_spec rd 0); [lia|].
      assert (Hl : len (zslice (fc f) (o + ins) rd) = rd) by (rewrite len_zslice; lia).
      exists (zslice (fc f) (o + ins) rd). eexists. split; [reflexivity|].
      assert (Hbef : len (joined fc (firstn i sel)) = before).
      { rewrite joined_len by (now apply Forall_firstn'). rewrite size_sum_eq. unfold before.
        rewrite Hsz, firstn_map. reflexivity. }
      split; [|split].
      + rewrite Hl. rewrite (joined_split sel i) by (unfold stencil in *; lia). fold c; rewrite Ec.
        rewrite zslice_app_r by lia. rewrite Hbef.
        change (bytes_at (fc f) o n) with (zslice (fc f) o n).
        rewrite zslice_app_l; [|lia|lia|rewrite len_zslice; lia].
        rewrite zslice_zslice by lia. f_equal; lia.
      + lia.
      + intros E. rewrite E in Hl. rewrite len_nil in Hl. lia.
  Qed.

  Lemma WF_set_offset sel s o : WF sel s -> WF sel (set_offset s o).
  Proof. intros [? ? ? ?]; constructor; assumption. Qed.

  Lemma sf_read_loop_spec sel fuel s pos size result :
    WF sel s -> Forall (inside fc) sel -> Forall (fun c => 0 < size_of c) sel ->
    0 <= sf_offset s -> (Z.to_nat (size - len result) < fuel)%nat ->
    exists pos', sf_read_loop fc fuel s pos size result =
      (Ok (result ++ zslice (joined fc sel) (sf_offset s) (size - len result)),
       set_offset s (sf_offset s + len (zslice (joined fc sel) (sf_offset s) (size - len result))), pos').
  Proof.
    revert s pos result; induction fuel as [|fuel IH]; intros s pos result Hwf Hin Hpos Hoff Hfuel; [lia|].
    cbn [sf_read_loop]. destruct (Z.ltb_spec (len result) size) as [Hlt|Hge].
    - destruct (sf_read1_spec sel s pos (size - len result) Hwf Hin Hpos Hoff ltac:(lia))
        as (tmp & pos' & -> & Htmp & Hle & Hend).
      destruct tmp as [|t0 tr] eqn:Et.
      + rewrite (zslice_nil_ge (joined fc sel)) by (apply Hend; reflexivity). rewrite len_nil, app_nil_r.
        eexists; reflexivity.
      + rewrite <- Et in *. assert (0 < len tmp) by (rewrite Et, len_cons; pose proof (len_nonneg tr); lia).
        clear t0 tr Et.
        destruct (IH (set_offset s (sf_offset s + len tmp)) pos' (result ++ tmp)) as (pos'' & E);
          try (apply WF_set_offset; assumption); auto.
        { cbn; lia. }
        { rewrite len_app; lia. }
        rewrite E. exists pos''. cbn [sf_offset set_offset]. rewrite len_app.
        replace (size - len result) with (len tmp + (size - (len result + len tmp))) by lia.
        rewrite (zslice_add (joined fc sel) (sf_offset s) (len tmp)) by lia. rewrite <- Htmp. rewrite len_app, <- app_assoc.
        unfold set_offset. cbn. f_equal. f_equal. f_equal. lia.
    - rewrite zslice_le0 by lia. rewrite len_nil, app_nil_r, Z.add_0_r. exists pos.
      destruct s; reflexivity.
  Qed.

  Lemma lastZ_WF sel s : WF sel s -> Forall (inside fc) sel -> lastZ (sf_cumsizes s) = len (joined fc sel).
  Proof.
    intros [? ? Hsz Hcum] Hin. rewrite Hcum, last_cumsum, joined_len by exact Hin. rewrite size_sum_eq, Hsz. lia.
  Qed.

  Lemma sf_read_spec sel s pos size :
    WF sel s -> Forall (inside fc) sel -> Forall (fun c => 0 < size_of c) sel ->
    0 <= sf_offset s -> -1 <= size ->
    let d := if size <? 0 then zskip (sf_offset s) (joined fc sel) else zslice (joined fc sel) (sf_offset s) size in
    exists pos', sf_read fc s pos size = (Ok d, set_offset s (sf_offset s + len d), pos').
  Proof.
    intros Hwf Hin Hpos Hoff Hsz. unfold sf_read.
    destruct (Z.eqb_spec size 0) as [->|Hz].
    - cbn. rewrite zslice_le0 by lia. rewrite len_nil, Z.add_0_r. exists pos. destruct s; reflexivity.
    - destruct (Z.eqb_spec size (-1)) as [->|H1].
      + change (-1 <? 0) with true. cbn zeta iota.
        rewrite (lastZ_WF sel) by assumption.
        destruct (sf_read_loop_spec sel (S (S (Z.to_nat (len (joined fc sel) - sf_offset s)))) s pos
                    (len (joined fc sel) - sf_offset s) []) as (pos' & E); auto.
        { rewrite len_nil; lia. }
        rewrite E, len_nil, Z.sub_0_r, app_nil_l. exists pos'.
        assert (Ez : zslice (joined fc sel) (sf_offset s) (len (joined fc sel) - sf_offset s)
                     = zskip (sf_offset s) (joined fc sel)).
        { unfold zslice. destruct (Z.le_gt_cases (len (joined fc sel)) (sf_offset s)).
          - rewrite zskip_all by lia. unfold ztake; apply firstn_nil.
          - apply ztake_all. rewrite len_zskip; lia. }
        now rewrite Ez.
      + destruct (Z.ltb_spec size 0); [lia|].
        destruct (sf_read_loop_spec sel (S (S (Z.to_nat size))) s pos size []) as (pos' & E); auto.
        { rewrite len_nil; lia. }
        rewrite E, len_nil, Z.sub_0_r, app_nil_l. now exists pos'.
  Qed.

  Lemma sf_init_spec cuts : Forall (inside fc) cuts ->
    exists s, sf_init cuts = Ok s /\ WF (selected cuts) s /\ sf_offset s = 0.
  Proof.
    intros Hin. unfold sf_init.
    assert (E1 : forallb (fun '(_, o, _) => 0 <=? o) cuts = true).
    { apply forallb_forall. intros [[f o] n] Hc. rewrite Forall_forall in Hin. specialize (Hin _ Hc). cbn in Hin. lia. }
    assert (E2 : forallb (fun '(_, _, s) => 0 <=? s) cuts = true).
    { apply forallb_forall. intros [[f o] n] Hc. rewrite Forall_forall in Hin. specialize (Hin _ Hc). cbn in Hin. lia. }
    rewrite E1, E2. cbn [negb sf_seek Z.ltb Z.compare]. eexists; split; [reflexivity|]. split; [|reflexivity].
    constructor; reflexivity.
  Qed.

  Lemma selected_inside cuts : Forall (inside fc) cuts -> Forall (inside fc) (selected cuts).
  Proof. rewrite !Forall_forall. intros H c Hc. apply filter_In in Hc as [Hc _]. auto. Qed.


  Lemma sf_step_spec sel s pos c :
    WF sel s -> Forall (inside fc) sel -> Forall (fun c => 0 < size_of c) sel ->
    0 <= sf_offset s -> documented c ->
    (match c with CSeek o w => 0 <= target (joined fc sel) (sf_offset s) o w | _ => True end) ->
    exists x s' pos', sf_step fc (s, pos) (to_op c) = (x, (s', pos')) /\ WF sel s' /\ 0 <= sf_offset s' /\
      mem_call (joined fc sel) (sf_offset s) c = (to_answer x, sf_offset s').
  Proof.
    intros Hwf Hin Hpos Hoff Hdoc Ht. destruct c as [o w|n|].
    - cbn [to_op sf_step mem_call]. unfold sf_seek.
      set (new := match to_whence w with
                  | SEEK_SET => o | SEEK_CUR => sf_offset s + o | SEEK_END => lastZ (sf_cumsizes s) + o end).
      assert (En : new = target (joined fc sel) (sf_offset s) o w).
      { unfold new, target. destruct w; cbn [to_whence]; try reflexivity.
        rewrite (lastZ_WF sel) by assumption. reflexivity. }
      rewrite <- En in *. cbv zeta. destruct (Z.ltb_spec new 0); [lia|].
      eexists _, _, _. split; [reflexivity|]. split; [now apply WF_set_offset|]. split; [cbn; lia|]. reflexivity.
    - cbn [to_op sf_step mem_call].
      destruct (sf_read_spec sel s pos n Hwf Hin Hpos Hoff Hdoc) as (pos' & ->).
      eexists _, _, _. split; [reflexivity|]. split; [now apply WF_set_offset|].
      split; [|reflexivity]. cbn [sf_offset set_offset].
      pose proof (len_nonneg (if n <? 0 then zskip (sf_offset s) (joined fc sel)
                              else zslice (joined fc sel) (sf_offset s) n)). lia.
    - eexists _, _, _. split; [reflexivity|]. split; [assumption|]. split; [assumption|]. reflexivity.
  Qed.

  Lemma sf_run_spec sel cs s pos :
    WF sel s -> Forall (inside fc) sel -> Forall (fun c => 0 < size_of c) sel -> 0 <= sf_offset s ->
    Forall documented cs -> no_negative_seek (joined fc sel) (sf_offset s) cs ->
    map to_answer (sf_run fc (s, pos) (map to_op cs)) = mem_run (joined fc sel) (sf_offset s) cs.
  Proof.
    intros Hwf Hin Hpos. revert s pos Hwf. induction cs as [|c r IH]; intros s pos Hwf Hoff Hdoc Hneg; [reflexivity|].
    inversion Hdoc as [|? ? Hd Hdr]; subst. destruct Hneg as [Ht Hr].
    destruct (sf_step_spec sel s pos c Hwf Hin Hpos Hoff Hd Ht) as (x & s' & pos' & E & Hwf' & Hoff' & Em).
    cbn [map sf_run mem_run]. rewrite E, Em. cbn [map]. rewrite Em in Hr. f_equal. now apply IH.
  Qed.

  Lemma stencil_history cuts cs pos :
    Forall (inside fc) cuts -> Forall documented cs -> no_negative_seek (joined fc cuts) 0 cs ->
    exists s, sf_init cuts = Ok s /\
      map to_answer (sf_run fc (s, pos) (map to_op cs)) = mem_run (joined fc cuts) 0 cs.
  Proof.
    intros Hin Hdoc Hneg. destruct (sf_init_spec cuts Hin) as (s & Es & Hwf & Ho). exists s. split; [exact Es|].
    rewrite <- (joined_selected cuts) in *. rewrite <- Ho in *.
    apply sf_run_spec; auto using selected_inside, selected_pos. lia.
  Qed.

  Lemma stencil_read_at cuts o n pos :
    Forall (inside fc) cuts -> 0 <= o -> -1 <= n ->
    let expected := if n =? -1 then skipn (Z.to_nat o) (joined fc cuts) else bytes_at (joined fc cuts) o n in
    exists s s1 s2 pos', sf_init cuts = Ok s /\ sf_seek s o SEEK_SET = (Ok o, s1) /\
      sf_read fc s1 pos n = (Ok expected, s2, pos') /\
      sf_tell s2 = o + Z.of_nat (length expected).
  Proof.
    intros Hin Ho Hn expected. destruct (sf_init_spec cuts Hin) as (s & Es & Hwf & Hz).
    exists s, (set_offset s o). unfold sf_seek. cbv zeta. destruct (Z.ltb_spec o 0); [lia|].
    destruct (sf_read_spec (selected cuts) (set_offset s o) pos n) as (pos' & E);
      auto using selected_inside, selected_pos, WF_set_offset; try lia.
    rewrite E, joined_selected. eexists _, _. split; [exact Es|]. split; [reflexivity|]. cbn [sf_offset set_offset].
    assert (Ex : expected = if n <? 0 then zskip o (joined fc cuts) else zslice (joined fc cuts) o n).
    { unfold expected. destruct (Z.eqb_spec n (-1)) as [->|]; [reflexivity|]. destruct (Z.ltb_spec n 0); [lia|reflexivity]. }
    rewrite Ex. split; reflexivity.
  Qed.

  (** Histories with rejected seeks: what the code does. *)
  Lemma sf_step_actual sel s pos c :
    WF sel s -> Forall (inside fc) sel -> Forall (fun c => 0 < size_of c) sel -> documented c ->
    exists x s' pos', sf_step fc (s, pos) (to_op c) = (x, (s', pos')) /\ WF sel s' /\
      actual_call (joined fc sel) (sf_offset s) c = (to_answer x, sf_offset s').
  Proof.
    intros Hwf Hin Hpos Hdoc. destruct c as [o w|n|].
    - cbn [to_op sf_step actual_call]. unfold sf_seek.
      set (new := match to_whence w with
                  | SEEK_SET => o | SEEK_CUR => sf_offset s + o | SEEK_END => lastZ (sf_cumsizes s) + o end).
      assert (En : new = target (joined fc sel) (sf_offset s) o w).
      { unfold new, target. destruct w; cbn [to_whence]; try reflexivity.
        rewrite (lastZ_WF sel) by assumption. reflexivity. }
      rewrite <- En. cbv zeta. destruct (Z.ltb_spec new 0);
        (eexists _, _, _; split; [reflexivity|]; split; [now apply WF_set_offset|reflexivity]).
    - cbn [to_op sf_step actual_call]. destruct (Z.ltb_spec (sf_offset s) 0) as [Hneg|Hnn].
      + unfold sf_read. destruct (Z.eqb_spec n 0) as [->|Hz].
        * eexists _, _, _; split; [reflexivity|]; split; [assumption|reflexivity].
        * pose proof (lastZ_WF sel s Hwf Hin) as El. pose proof (len_nonneg (joined fc sel)) as Hl.
          set (size := if n =? -1 then _ else n).
          assert (Hsz : 0 < size).
          { cbn in Hdoc. unfold size. destruct (Z.eqb_spec n (-1)); lia. }
          cbn [sf_read_loop]. rewrite len_nil. destruct (Z.ltb_spec 0 size); [|lia].
          unfold sf_read1, find_stencil. destruct (Z.ltb_spec (size - 0) 0); [lia|].
          destruct (Z.ltb_spec (sf_offset s) 0); [|lia].
          eexists _, _, _; split; [reflexivity|]; split; [assumption|reflexivity].
      + destruct (sf_read_spec sel s pos n Hwf Hin Hpos Hnn Hdoc) as (pos' & ->).
        eexists _, _, _. split; [reflexivity|]. split; [now apply WF_set_offset|reflexivity].
    - eexists _, _, _. split; [reflexivity|]. split; [assumption|]. reflexivity.
  Qed.

  Lemma sf_run_actual sel cs s pos :
    WF sel s -> Forall (inside fc) sel -> Forall (fun c => 0 < size_of c) sel -> Forall documented cs ->
    map to_answer (sf_run fc (s, pos) (map to_op cs)) = actual_run (joined fc sel) (sf_offset s) cs.
  Proof.
    intros Hwf Hin Hpos. revert s pos Hwf. induction cs as [|c r IH]; intros s pos Hwf Hdoc; [reflexivity|].
    inversion Hdoc as [|? ? Hd Hdr]; subst.
    destruct (sf_step_actual sel s pos c Hwf Hin Hpos Hd) as (x & s' & pos' & E & Hwf' & Em).
    cbn [map sf_run actual_run]. rewrite E, Em. cbn [map]. f_equal. now apply IH.
  Qed.

  Lemma stencil_history_actual cuts cs pos :
    Forall (inside fc) cuts -> Forall documented cs ->
    exists s, sf_init cuts = Ok s /\
      map to_answer (sf_run fc (s, pos) (map to_op cs)) = actual_run (joined fc cuts) 0 cs.
  Proof.
    intros Hin Hdoc. destruct (sf_init_spec cuts Hin) as (s & Es & Hwf & Ho). exists s. split; [exact Es|].
    rewrite <- (joined_selected cuts) in *. rewrite <- Ho in *.
    apply sf_run_actual; auto using selected_inside, selected_pos.
  Qed.
End Proofs.
