From Verif Require Import PyBase Stencil_Model MemFile_Spec Stencil_Spec Stencil_Proofs Joined_Model Joined_Spec.
Local Open Scope Z_scope.

Section Locate.
  (** What the binary search over cumulative sizes finds. *)
  Lemma locate sizes off : (forall x, In x sizes -> 0 < x) -> 0 <= off ->
    exists i, bisect_left (cumsum 0 sizes) (off + 1) = S i /\
      ((length sizes <= i)%nat /\ sumZ sizes <= off \/
       (i < length sizes)%nat /\ nth i (cumsum 0 sizes) 0 = sumZ (firstn i sizes) /\
       sumZ (firstn i sizes) <= off < sumZ (firstn i sizes) + nth i sizes 0).
  Proof.
    intros Hp Hoff.
    assert (Hnn : forall x, In x sizes -> 0 <= x) by (intros x Hx; specialize (Hp x Hx); lia).
    pose proof (bisect_left_spec _ (off + 1) (cumsum_sorted _ Hnn)) as (Hb1 & Hb2 & Hb3).
    rewrite cumsum_length in Hb1, Hb3. destruct (bisect_left _ _) as [|i].
    { exfalso. specialize (Hb3 O). rewrite nth_cumsum in Hb3 by lia. cbn in Hb3. lia. }
    exists i; split; [reflexivity|].
    destruct (Nat.le_gt_cases (length sizes) i) as [Hi|Hi]; [left|right]; split; try assumption.
    - specialize (Hb2 i). rewrite nth_cumsum in Hb2 by lia. rewrite firstn_all2 in Hb2 by lia. lia.
    - specialize (Hb2 i ltac:(lia)). specialize (Hb3 (S i) ltac:(lia) ltac:(lia)).
      rewrite nth_cumsum in Hb2, Hb3 by lia. rewrite sumZ_firstn_step in Hb3 by lia.
      rewrite nth_cumsum by lia. lia.
  Qed.
End Locate.

Section Joined.
  Context {A : Type}.

  Definition nonempty_parts (parts : list (list A)) : list (list A) := filter (fun f => 0 <? len f) parts.

  Record JWF (parts : list (list A)) (s : jfile A) : Prop := {
    jwf_fact : jf_factories s = parts;
    jwf_sizes : jf_sizes s = map len parts;
    jwf_cum : jf_cumsizes s = cumsum 0 (map len parts) }.

  Lemma cumsum_snoc l x acc : cumsum acc (l ++ [x]) = cumsum acc l ++ [last (cumsum acc l) 0 + x].
  Proof.
    revert acc; induction l as [|y r IH]; intros acc; [reflexivity|].
    cbn [cumsum app]. rewrite IH. f_equal. f_equal. f_equal.
    pose proof (cumsum_length r (acc + y)). destruct (cumsum (acc + y) r); [discriminate|reflexivity].
  Qed.

  Lemma jf_collect_spec parts sizes kept cum :
    sizes = map len kept -> cum = cumsum 0 (map len kept) ->
    jf_collect parts sizes kept cum =
      (map len (kept ++ nonempty_parts parts), kept ++ nonempty_parts parts, cumsum 0 (map len (kept ++ nonempty_parts parts))).
  Proof.
    revert sizes kept cum; induction parts as [|p r IH]; intros sizes kept cum -> ->;
      cbn [jf_collect nonempty_parts filter].
    - now rewrite app_nil_r.
    - destruct (Z.ltb_spec 0 (len p)) as [H|H].
      + rewrite IH; [|now rewrite map_app|rewrite map_app; cbn [map]; now rewrite cumsum_snoc].
        rewrite <- !app_assoc. reflexivity.
      + now rewrite IH.
  Qed.

  Lemma jf_init_WF parts : JWF (nonempty_parts parts) (jf_init parts).
  Proof.
    unfold jf_init. rewrite (jf_collect_spec parts [] [] [0]) by reflexivity. constructor; reflexivity.
  Qed.

  Lemma concat_nonempty parts : concat (nonempty_parts parts) = concat parts.
  Proof.
    induction parts as [|p r IH]; [reflexivity|]. cbn [nonempty_parts filter concat].
    destruct (Z.ltb_spec 0 (len p)); cbn [concat]; fold (nonempty_parts r); rewrite IH; [reflexivity|].
    rewrite (len_zero p); [reflexivity|]. pose proof (len_nonneg p); lia.
  Qed.

  Lemma len_concat parts : len (concat parts) = sumZ (map (@len A) parts).
  Proof. induction parts as [|p r IH]; [reflexivity|]. cbn [concat map sumZ]. now rewrite len_app, IH. Qed.

  Lemma concat_split (parts : list (list A)) i : (i < length parts)%nat ->
    concat parts = concat (firstn i parts) ++ nth i parts [] ++ concat (skipn (S i) parts).
  Proof.
    revert i; induction parts as [|p r IH]; intros i Hi; cbn [length] in Hi; [lia|].
    destruct i as [|i]; [reflexivity|]. cbn [firstn nth concat]. change (skipn (S (S i)) (p :: r)) with (skipn (S i) r).
    rewrite (IH i) by lia. now rewrite <- app_assoc.
  Qed.

  Definition wanted (content : list A) (pos n : Z) := if n <? 0 then zskip pos content else zslice content pos n.

  (** The slice of length [k] at [pos] inside part [i]. *)
  Lemma part_slice (parts : list (list A)) i pos k :
    (i < length parts)%nat -> 0 <= k ->
    sumZ (firstn i (map len parts)) <= pos ->
    pos + k <= sumZ (firstn i (map len parts)) + len (nth i parts []) ->
    zslice (nth i parts []) (pos - sumZ (firstn i (map len parts))) k = zslice (concat parts) pos k.
  Proof.
    intros Hi Hk Hlo Hhi. rewrite (concat_split parts i) by lia.
    assert (E : len (concat (firstn i parts)) = sumZ (firstn i (map len parts))) by (now rewrite len_concat, firstn_map).
    rewrite zslice_app_r by lia. rewrite E. rewrite zslice_app_l by lia. reflexivity.
  Qed.

  Lemma jf_read_spec parts s n :
    JWF parts s -> (forall p, In p parts -> 0 < len p) -> 0 <= jf_offset s -> -1 <= n ->
    exists d o', jf_read s n = (Ok d, jf_set s (jf_offset s + len d) o') /\ short_read (concat parts) (jf_offset s) n d.
  Proof.
    intros [Hf Hs Hc] Hp Hoff Hn. unfold jf_read. rewrite Hc, last_cumsum, <- len_concat, Z.add_0_l.
    unfold jf_find_stencil. rewrite Hc. destruct (Z.ltb_spec (jf_offset s) 0); [lia|].
    destruct (locate (map len parts) (jf_offset s)) as (i & -> & Hcase); [|assumption|].
    { intros x Hx. apply in_map_iff in Hx as (p & <- & Hin). auto. }
    rewrite Hs, map_length in *. rewrite <- len_concat in Hcase.
    destruct Hcase as [[Hi Hend]|(Hi & Ecum & Hlo & Hhi)].
    - destruct (Nat.leb_spec (length parts) i); [|lia].
      exists [], (jf_open s). rewrite len_nil, Z.add_0_r. split; [destruct s; reflexivity|].
      assert (E : (if n <? 0 then skipn (Z.to_nat (jf_offset s)) (concat parts)
                   else bytes_at (concat parts) (jf_offset s) n) = []).
      { destruct (n <? 0).
        - change (zskip (jf_offset s) (concat parts) = []). apply zskip_all; lia.
        - change (zslice (concat parts) (jf_offset s) n = []). apply zslice_nil_ge; lia. }
      unfold short_read. rewrite E. split; [exists []; reflexivity|auto].
    - destruct (Nat.leb_spec (length parts) i); [lia|].
      assert (Egf : exists p0, jf_get_file_object s i = (i, p0)).
      { unfold jf_get_file_object. destruct (jf_open s) as [[j p]|]; [|eauto].
        destruct (Nat.eqb_spec j i); subst; eauto. }
      destruct Egf as (p0 & ->).
      rewrite (nth_map_f _ parts i []) in * by lia. rewrite Ecum.
      set (before := sumZ (firstn i (map len parts))) in *.
      destruct (Z.ltb_spec (jf_offset s - before) 0); [lia|].
      destruct (Z.leb_spec (len (nth i parts [])) (jf_offset s - before)); [lia|].
      assert (Hcl : before + len (nth i parts []) <= len (concat parts)).
      { rewrite (concat_split parts i) by lia. rewrite !len_app, len_concat, <- firstn_map.
        pose proof (len_nonneg (concat (skipn (S i) parts))). fold before. lia. }
      set (size := if n =? -1 then _ else n).
      assert (Hsize : 0 <= size) by (unfold size; destruct (Z.eqb_spec n (-1)); lia).
      set (rd := Z.min size (len (nth i parts []) - (jf_offset s - before))).
      unfold file_read. destruct (Z.ltb_spec rd 0); [lia|]. rewrite Hf.
      assert (El : len (zslice (nth i parts []) (jf_offset s - before) rd) = rd) by (rewrite len_zslice; lia).
      assert (Es : zslice (nth i parts []) (jf_offset s - before) rd = zslice (concat parts) (jf_offset s) rd).
      { apply part_slice; fold before; lia. }
      eexists _, _. split; [reflexivity|].
      assert (Ew : (if n <? 0 then skipn (Z.to_nat (jf_offset s)) (concat parts)
                   else bytes_at (concat parts) (jf_offset s) n) = zslice (concat parts) (jf_offset s) size).
      { unfold size. destruct (Z.eqb_spec n (-1)) as [->|]; [|destruct (Z.ltb_spec n 0); [lia|reflexivity]].
        cbn. change (zskip (jf_offset s) (concat parts) = zslice (concat parts) (jf_offset s) (len (concat parts) - jf_offset s)).
        unfold zslice. rewrite ztake_all; [reflexivity|]. rewrite len_zskip; lia. }
      unfold short_read. rewrite Ew, Es. split.
      + exists (zslice (concat parts) (jf_offset s + rd) (size - rd)).
        rewrite <- zslice_add by lia. f_equal; lia.
      + intros E0. rewrite Es, E0, len_nil in El. rewrite zslice_le0; [reflexivity|lia].
  Qed.

  Lemma JWF_set parts s o x : JWF parts s -> JWF parts (jf_set s o x).
  Proof. intros [? ? ?]; constructor; assumption. Qed.

  Lemma jf_run_spec parts cs s :
    JWF parts s -> (forall p, In p parts -> 0 < len p) -> 0 <= jf_offset s -> Forall documented cs ->
    raw_run (concat parts) (jf_offset s) cs (map to_answer (jf_run s (map to_op cs))).
  Proof.
    intros Hwf Hp. revert s Hwf. induction cs as [|c r IH]; intros s Hwf Hoff Hdoc; [constructor|].
    inversion Hdoc as [|? ? Hd Hr]; subst. destruct c as [o w|n|].
    - cbn [map to_op jf_run jf_step]. unfold jf_seek.
      set (new := match to_whence w with
                  | SEEK_SET => o | SEEK_CUR => jf_offset s + o | SEEK_END => lastZ (jf_cumsizes s) + o end).
      assert (En : new = target (concat parts) (jf_offset s) o w).
      { unfold new, target. destruct w; cbn [to_whence]; try reflexivity.
        destruct Hwf as [_ _ ->]. rewrite last_cumsum, <- len_concat. reflexivity. }
      rewrite En. cbn [map to_answer]. apply raw_seek.
      apply (IH (jf_set s (Z.max (target (concat parts) (jf_offset s) o w) 0) (jf_open s))); auto using JWF_set.
      cbn; lia.
    - cbn [map to_op jf_run jf_step].
      destruct (jf_read_spec parts s n Hwf Hp Hoff Hd) as (d & o' & -> & Hsr).
      cbn [map to_answer]. apply raw_read; [exact Hsr|].
      apply (IH (jf_set s (jf_offset s + len d) o')); auto using JWF_set.
      cbn; pose proof (len_nonneg d); lia.
    - cbn [map to_op jf_run jf_step to_answer]. apply raw_tell. now apply IH.
  Qed.

  Lemma nonempty_parts_pos (parts : list (list A)) p : In p (nonempty_parts parts) -> 0 < len p.
  Proof. intros H; apply filter_In in H as [_ H]. lia. Qed.

  Lemma joined_history (parts : list (list A)) cs : Forall documented cs ->
    raw_run (concat parts) 0 cs (map to_answer (jf_run (jf_init parts) (map to_op cs))).
  Proof.
    intros Hdoc. rewrite <- concat_nonempty.
    pose proof (jf_init_WF parts) as Hwf.
    assert (E : jf_offset (jf_init parts) = 0) by (unfold jf_init; destruct (jf_collect _ _ _ _) as [[? ?] ?]; reflexivity).
    rewrite <- E at 1. apply jf_run_spec; eauto using nonempty_parts_pos. lia.
  Qed.

  (** States reachable from [jf_init]. *)
  Lemma jf_step_WF parts s o : JWF parts s -> (forall p, In p parts -> 0 < len p) -> 0 <= jf_offset s ->
    match o with Read n => -1 <= n | _ => True end ->
    JWF parts (snd (jf_step s o)) /\ 0 <= jf_offset (snd (jf_step s o)).
  Proof.
    intros Hwf Hp Hoff Hd. destruct o as [off w|n|]; cbn [jf_step].
    - unfold jf_seek. cbn [snd]. split; [now apply JWF_set|cbn; lia].
    - destruct (jf_read_spec parts s n Hwf Hp Hoff Hd) as (d & o' & -> & _). cbn [snd].
      split; [now apply JWF_set|cbn; pose proof (len_nonneg d); lia].
    - cbn; auto.
  Qed.

  Lemma gather_spec (parts : list (list A)) fuel s n acc :
    JWF parts s -> (forall p, In p parts -> 0 < len p) -> 0 <= jf_offset s -> (Z.to_nat (n - len acc) < fuel)%nat ->
    exists s', gather jf_read fuel s n acc = (Ok (acc ++ zslice (concat parts) (jf_offset s) (n - len acc)), s').
  Proof.
    revert s acc; induction fuel as [|fuel IH]; intros s acc Hwf Hp Hoff Hfuel; [lia|].
    cbn [gather]. destruct (Z.ltb_spec (len acc) n) as [Hlt|Hge].
    - destruct (jf_read_spec parts s (n - len acc) Hwf Hp Hoff ltac:(lia)) as (d & o' & -> & Hsr).
      unfold short_read in Hsr. destruct (Z.ltb_spec (n - len acc) 0); [lia|].
      change (bytes_at (concat parts) (jf_offset s) (n - len acc))
        with (zslice (concat parts) (jf_offset s) (n - len acc)) in Hsr.
      destruct Hsr as ((rest & Er) & He). destruct d as [|d0 dr] eqn:Ed.
      + rewrite He by reflexivity. rewrite app_nil_r. eauto.
      + rewrite <- Ed in *. clear He.
        assert (0 < len d) by (rewrite Ed, len_cons; pose proof (len_nonneg dr); lia).
        assert (Hdl : len d <= n - len acc).
        { assert (El := f_equal len Er). rewrite len_zslice, len_app in El by lia. pose proof (len_nonneg rest). lia. }
        assert (Hd : d = zslice (concat parts) (jf_offset s) (len d)).
        { assert (Ex : zslice (concat parts) (jf_offset s) (n - len acc) =
                       zslice (concat parts) (jf_offset s) (len d) ++
                       zslice (concat parts) (jf_offset s + len d) (n - len acc - len d)).
          { rewrite <- zslice_add by lia. f_equal; lia. }
          rewrite Er in Ex.
          assert (Hl : len (zslice (concat parts) (jf_offset s) (len d)) = len d).
          { assert (El := f_equal len Er). rewrite len_zslice, len_app in El by lia. pose proof (len_nonneg rest).
            rewrite len_zslice by lia. lia. }
          apply (f_equal (firstn (length d))) in Ex.
          rewrite firstn_app, Nat.sub_diag, firstn_all in Ex. cbn [firstn] in Ex. rewrite app_nil_r in Ex.
          rewrite Ex at 1. rewrite firstn_app.
          assert (Hl' : length (zslice (concat parts) (jf_offset s) (len d)) = length d) by (unfold len in *; lia).
          rewrite Hl', Nat.sub_diag. cbn [firstn]. rewrite app_nil_r. rewrite <- Hl' at 1. apply firstn_all. }
        destruct (IH (jf_set s (jf_offset s + len d) o') (acc ++ d)) as (s' & E); auto using JWF_set.
        { cbn; lia. }
        { rewrite len_app; lia. }
        rewrite Ed in E |- *. rewrite <- Ed in E |- *. rewrite E. exists s'. cbn [jf_offset jf_set]. rewrite len_app.
        replace (n - len acc) with (len d + (n - (len acc + len d))) by lia.
        rewrite (zslice_add (concat parts) (jf_offset s) (len d)) by lia. rewrite <- Hd, <- app_assoc. reflexivity.
    - rewrite zslice_le0 by lia. rewrite app_nil_r. eauto.
  Qed.

  (** After any history, gathering [n] bytes gives exactly the next [n] bytes. *)
  Lemma jf_exec_WF parts ops s : JWF parts s -> (forall p, In p parts -> 0 < len p) -> 0 <= jf_offset s ->
    Forall (fun o => match o with Read n => -1 <= n | _ => True end) ops ->
    JWF parts (jf_exec s ops) /\ 0 <= jf_offset (jf_exec s ops).
  Proof.
    intros Hwf Hp Hoff Hops. revert s Hwf Hoff. induction Hops as [|o r Ho Hr IH]; intros s Hwf Hoff; [auto|].
    cbn [jf_exec]. destruct (jf_step_WF parts s o Hwf Hp Hoff Ho). auto.
  Qed.

  Lemma joined_gather (parts : list (list A)) calls n : Forall documented calls -> 0 <= n ->
    exists s', gather jf_read (S (Z.to_nat n)) (jf_exec (jf_init parts) (map to_op calls)) n [] =
      (Ok (bytes_at (concat parts) (jf_tell (jf_exec (jf_init parts) (map to_op calls))) n), s').
  Proof.
    intros Hdoc Hn. rewrite <- concat_nonempty.
    assert (E : jf_offset (jf_init parts) = 0) by (unfold jf_init; destruct (jf_collect _ _ _ _) as [[? ?] ?]; reflexivity).
    destruct (jf_exec_WF (nonempty_parts parts) (map to_op calls) (jf_init parts)) as [Hwf Hoff];
      eauto using jf_init_WF, nonempty_parts_pos; [lia| |].
    { apply Forall_map. eapply Forall_impl; [|exact Hdoc]. intros [? ?|?|]; cbn; auto. }
    destruct (gather_spec (nonempty_parts parts) (S (Z.to_nat n)) _ n [] Hwf) as (s' & Es); eauto using nonempty_parts_pos.
    { rewrite len_nil; lia. }
    rewrite len_nil, Z.sub_0_r in Es. exists s'. exact Es.
  Qed.
End Joined.

Section Lambda.
  Context {A : Type}.
  Variable rawRead : Z -> Z -> list A.
  Variable content : list A.
  Hypothesis Hraw : forall o n, 0 <= o -> 0 <= n -> n = 0 \/ o + n <= len content -> rawRead o n = bytes_at content o n.

  Lemma lf_run_spec cs s :
    lf_size s = len content -> 0 <= lf_offset s -> no_negative_seek content (lf_offset s) cs ->
    (forall o n, In (o, n) (lf_log s) -> 0 <= o /\ 0 <= n /\ (n = 0 \/ o + n <= len content)) ->
    let '(outs, s') := lf_run rawRead s (map to_op cs) in
    map to_answer outs = mem_run content (lf_offset s) cs /\
    (forall o n, In (o, n) (lf_log s') -> 0 <= o /\ 0 <= n /\ (n = 0 \/ o + n <= len content)).
  Proof.
    revert s. induction cs as [|c r IH]; intros s Hsz Hoff Hneg Hlog; [cbn; auto|].
    destruct Hneg as [Ht Hr]. cbn [map lf_run]. destruct c as [o w|n|].
    - cbn [to_op lf_step mem_run mem_call] in *. unfold lf_seek.
      set (new := match to_whence w with
                  | SEEK_SET => o | SEEK_CUR => lf_offset s + o | SEEK_END => lf_size s + o end).
      assert (En : new = target content (lf_offset s) o w).
      { unfold new, target. destruct w; cbn [to_whence]; try reflexivity. rewrite Hsz. reflexivity. }
      cbv zeta. rewrite En in *. clear new En.
      destruct (Z.ltb_spec (target content (lf_offset s) o w) 0); [lia|].
      specialize (IH (mkLF (target content (lf_offset s) o w) (lf_size s) (lf_log s)) Hsz Ht Hr Hlog).
      destruct (lf_run _ _ _) as [outs s']. destruct IH as [E1 E2]. cbn [map to_answer]. split; [|exact E2].
      f_equal. exact E1.
    - cbn [to_op lf_step]. unfold lf_read.
      set (req := Z.min _ _). 
      rewrite Hraw by (unfold req; destruct (Z.ltb_spec n 0); pose proof (len_nonneg content); lia).
      change (bytes_at content (lf_offset s) req) with (zslice content (lf_offset s) req).
      assert (Ed : zslice content (lf_offset s) req =
                   if n <? 0 then skipn (Z.to_nat (lf_offset s)) content else bytes_at content (lf_offset s) n).
      { unfold req. rewrite Hsz. destruct (Z.ltb_spec n 0).
        - change (skipn _ content) with (zskip (lf_offset s) content). unfold zslice.
          destruct (Z.le_gt_cases (len content) (lf_offset s)).
          + rewrite zskip_all by lia. apply firstn_nil.
          + apply ztake_all. rewrite len_zskip by lia. lia.
        - change (bytes_at content (lf_offset s) n) with (zslice content (lf_offset s) n).
          symmetry. rewrite zslice_clip by lia. f_equal. }
      rewrite Ed. cbn [mem_run mem_call] in *.
      set (d := if n <? 0 then _ else _) in *.
      specialize (IH (mkLF (lf_offset s + len d) (lf_size s) (lf_log s ++ [(lf_offset s, req)])) Hsz).
      destruct (lf_run _ _ _) as [outs s']. cbn [lf_offset] in IH.
      assert (0 <= lf_offset s + len d) by (pose proof (len_nonneg d); lia).
      destruct IH as [E1 E2]; auto.
      + intros o' n' Hin. apply in_app_iff in Hin as [Hin|[E|[]]]; [auto|]. inversion E; subst o' n'.
        unfold req. rewrite Hsz. destruct (Z.ltb_spec n 0); pose proof (len_nonneg content); lia.
      + cbn [map to_answer]. split; [|exact E2]. f_equal. exact E1.
    - cbn [to_op lf_step mem_run mem_call] in *. specialize (IH s Hsz Hoff Hr Hlog).
      destruct (lf_run _ _ _) as [outs s']. destruct IH as [E1 E2]. cbn [map to_answer]. split; [f_equal; exact E1|exact E2].
  Qed.
End Lambda.

Lemma lambda_history {A} (rawRead : Z -> Z -> list A) (content : list A) (calls : list call) :
  (forall o n, 0 <= o -> 0 <= n -> n = 0 \/ o + n <= len content -> rawRead o n = bytes_at content o n) ->
  no_negative_seek content 0 calls ->
  let '(outs, s) := lf_run rawRead (lf_init (len content)) (map to_op calls) in
  map to_answer outs = mem_run content 0 calls /\
  (forall o n, In (o, n) (lf_log s) -> 0 <= o /\ 0 <= n /\ (n = 0 \/ o + n <= len content)).
Proof.
  intros Hraw Hneg. apply (lf_run_spec rawRead content Hraw calls (lf_init (len content))); cbn; auto; [lia|].
  intros ? ? [].
Qed.

Lemma zero_raw_read_ok {A} (zero : A) size o n : 0 <= o -> 0 <= n -> n = 0 \/ o + n <= len (repeat zero size) ->
  zero_raw_read zero o n = bytes_at (repeat zero size) o n.
Proof.
  intros Ho Hn H. unfold zero_raw_read, bytes_at. unfold len in H. rewrite repeat_length in H.
  assert (G : forall k m size, (k + m <= size)%nat \/ m = 0%nat ->
              repeat zero m = firstn m (skipn k (repeat zero size))).
  { induction k as [|k IH]; intros m s Hs.
    - cbn [skipn]. revert s Hs; induction m as [|m IHm]; intros s Hs; [reflexivity|].
      destruct s; [lia|]. cbn [repeat firstn]. f_equal. apply IHm. lia.
    - destruct s; [|cbn [repeat skipn]; apply IH; lia].
      destruct Hs as [Hs|Hs]; [lia|]. now rewrite Hs. }
  apply G. lia.
Qed.
