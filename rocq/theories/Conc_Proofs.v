From Verif Require Import PyBase Stencil_Model MemFile_Spec Stencil_Spec Stencil_Proofs Conc_Model.
Local Open Scope Z_scope.

Section Proofs.
  Context {A : Type}.
  Variable fc : nat -> list A.
  Variable sel : nat -> list stencil.       (* selected cut-outs of each thread's file *)
  Hypothesis Hin : forall t, Forall (inside fc) (sel t).
  Hypothesis Hpos : forall t, Forall (fun c => 0 < size_of c) (sel t).

  Notation content t := (joined fc (sel t)).

  Definition calls_of (p : list call) : list top := map (fun c => TCall (to_op c)) p.

  (** What thread [t] still has to answer. *)
  Definition remaining (t : nat) (th : @thread A) (p : list call) : list (answer A) :=
    let off := sf_offset (t_file th) in
    match t_pc th with
    | Idle => mem_run (content t) off p
    | Wait size => let d := zslice (content t) off size in AnsData d :: mem_run (content t) (off + len d) p
    | Loop result size | Sought _ result size =>
        let d := zslice (content t) off (size - len result) in
        AnsData (result ++ d) :: mem_run (content t) (off + len d) p
    | Rel o => to_answer o :: mem_run (content t) off p
    | DSought _ _ => []
    end.

  (** Where the position will be after the current read. *)
  Definition next_off (t : nat) (th : @thread A) : Z :=
    let off := sf_offset (t_file th) in
    match t_pc th with
    | Wait size => off + len (zslice (content t) off size)
    | Loop result size | Sought _ result size => off + len (zslice (content t) off (size - len result))
    | _ => off
    end.

  Definition holds (p : @pc A) : Prop :=
    match p with Loop _ _ | Sought _ _ _ | Rel _ => True | _ => False end.

  Record tinv (pos : nat -> Z) (whole : list call) (t : nat) (th : @thread A) : Prop := {
    ti_wf : WF (sel t) (t_file th);
    ti_off : 0 <= sf_offset (t_file th);
    ti_prog : exists p, t_prog th = calls_of p /\ Forall documented p /\
                no_negative_seek (content t) (next_off t th) p /\
                mem_run (content t) 0 whole = map to_answer (t_out th) ++ remaining t th p;
    ti_direct : match t_pc th with DSought _ _ => False | _ => True end;
    ti_sought : match t_pc th with
                | Sought i result size =>
                    len result < size /\ find_stencil (t_file th) (sf_offset (t_file th)) = Ok i /\
                    (i < length (sf_sizes (t_file th)))%nat /\
                    0 <= sf_offset (t_file th) - nth i (sf_cumsizes (t_file th)) 0 < nth i (sf_sizes (t_file th)) 0 /\
                    pos (nth i (sf_objs (t_file th)) O) =
                      nth i (sf_offsets (t_file th)) 0 + (sf_offset (t_file th) - nth i (sf_cumsizes (t_file th)) 0)
                | Loop result size => len result <= size \/ result = []
                | _ => True
                end }.

  Definition inv (wholes : nat -> list call) (st : @state A) : Prop :=
    (forall t, tinv (s_pos st) (wholes t) t (s_threads st t)) /\
    (forall t, holds (t_pc (s_threads st t)) <-> s_lock st = Some t).

  (** A thread that does not hold the lock does not care about the positions. *)
  Lemma tinv_pos pos pos' w t th : ~ holds (t_pc th) -> tinv pos w t th -> tinv pos' w t th.
  Proof.
    intros Hh [H1 H2 H3 H4 H5]. constructor; auto. destruct (t_pc th); cbn in Hh; tauto.
  Qed.

  Lemma inv_step_own wholes st t th' :
    inv wholes st -> tinv (s_pos st) (wholes t) t th' -> (holds (t_pc th') <-> holds (t_pc (s_threads st t))) ->
    inv wholes (set_thread st t th').
  Proof.
    intros [Ht Hl] Hth Hh. split; intros u; cbn [set_thread s_pos s_threads s_lock].
    - destruct (Nat.eq_dec t u) as [<-|Hne]; [rewrite upd_same|rewrite upd_other by exact Hne]; auto.
    - destruct (Nat.eq_dec t u) as [<-|Hne]; [rewrite upd_same|rewrite upd_other by exact Hne]; [|auto].
      rewrite Hh. apply Hl.
  Qed.

  (** A step of the lock holder that may move positions. *)
  Lemma inv_step_holder wholes st t th' pos' :
    inv wholes st -> s_lock st = Some t -> holds (t_pc th') -> tinv pos' (wholes t) t th' ->
    inv wholes (mkS pos' (s_lock st) (upd (s_threads st) t th')).
  Proof.
    intros [Ht Hl] Hlock Hh Hth. split; intros u; cbn [s_pos s_threads s_lock].
    - destruct (Nat.eq_dec t u) as [<-|Hne]; [rewrite upd_same|rewrite upd_other by exact Hne]; [exact Hth|].
      eapply tinv_pos; [|apply Ht]. rewrite Hl, Hlock. congruence.
    - destruct (Nat.eq_dec t u) as [<-|Hne]; [rewrite upd_same|rewrite upd_other by exact Hne]; [|auto]. tauto.
  Qed.

  Lemma zslice_rest t s size (result : list A) : 0 <= sf_offset s ->
    len (content t) <= sf_offset s -> zslice (content t) (sf_offset s) (size - len result) = [].
  Proof. intros. apply zslice_nil_ge; lia. Qed.

  Lemma step_inv wholes st t : inv wholes st -> inv wholes (step fc st t).
  Proof.
    intros HI. pose proof HI as [Ht Hl].
    specialize (Ht t) as Hth. specialize (Hl t) as Hlt.
    destruct Hth as [Hwf Hoff (p & Hp & Hdoc & Hneg & Hrun) Hdir Hso].
    unfold step. destruct (s_threads st t) as [f prog q out] eqn:Eth. cbn [t_file t_prog t_pc t_out] in *.
    destruct q as [|size|result size|i result size|o|g size]; unfold next_off, remaining in *;
      cbn [t_file t_prog t_pc t_out] in *; cbv zeta in Hneg, Hrun.
    - (* Idle *)
      destruct p as [|c r]; cbn [calls_of map] in Hp; rewrite Hp; [exact HI|].
      inversion Hdoc as [|? ? Hd Hdr]; subst. destruct Hneg as [Htg Hnr].
      cbn [mem_run] in Hrun. destruct c as [o w|n|]; cbn [to_op].
      + (* Seek *)
        unfold sf_seek.
        set (new := match to_whence w with
                    | SEEK_SET => o | SEEK_CUR => sf_offset f + o | SEEK_END => lastZ (sf_cumsizes f) + o end).
        assert (En : new = target (content t) (sf_offset f) o w).
        { unfold new, target. destruct w; cbn [to_whence]; try reflexivity.
          rewrite (lastZ_WF fc (sel t)) by auto. reflexivity. }
        cbv zeta. cbn [mem_call] in *. rewrite <- En in *. destruct (Z.ltb_spec new 0); [lia|].
        apply inv_step_own; [exact HI| |rewrite Eth; cbn; tauto].
        constructor; cbn [t_file t_prog t_pc t_out]; auto using WF_set_offset.
        exists r. unfold next_off, remaining; cbn [t_file t_prog t_pc t_out sf_offset set_offset]. repeat split; auto.
        rewrite map_app, <- app_assoc. exact Hrun.
      + (* Read *)
        cbn [mem_call] in *. destruct (Z.eqb_spec n 0) as [->|Hn0].
        * apply inv_step_own; [exact HI| |rewrite Eth; cbn; tauto].
          constructor; cbn [t_file t_prog t_pc t_out]; auto.
          exists r. unfold next_off, remaining; cbn [t_file t_prog t_pc t_out].
          cbn in Hnr, Hrun. rewrite Z.add_0_r in Hnr, Hrun. repeat split; auto.
          rewrite map_app, <- app_assoc. exact Hrun.
        * apply inv_step_own; [exact HI| |rewrite Eth; cbn; tauto].
          constructor; cbn [t_file t_prog t_pc t_out]; auto.
          exists r. unfold next_off, remaining; cbn [t_file t_prog t_pc t_out].
          set (size := if n =? -1 then _ else n).
          assert (Ed : (if n <? 0 then skipn (Z.to_nat (sf_offset f)) (content t) else bytes_at (content t) (sf_offset f) n)
                       = zslice (content t) (sf_offset f) size).
          { cbn in Hd. unfold size. destruct (Z.eqb_spec n (-1)) as [->|];
              [|destruct (Z.ltb_spec n 0); [lia|reflexivity]].
            cbn. rewrite (lastZ_WF fc (sel t)) by auto.
            change (zskip (sf_offset f) (content t) =
                    zslice (content t) (sf_offset f) (len (content t) - sf_offset f)).
            unfold zslice. destruct (Z.le_gt_cases (len (content t)) (sf_offset f)).
            - rewrite zskip_all by lia. unfold ztake; symmetry; apply firstn_nil.
            - symmetry; apply ztake_all. rewrite len_zskip; lia. }
          rewrite Ed in *. repeat split; auto.
      + (* Tell *)
        apply inv_step_own; [exact HI| |rewrite Eth; cbn; tauto].
        constructor; cbn [t_file t_prog t_pc t_out]; auto.
        exists r. unfold next_off, remaining; cbn [t_file t_prog t_pc t_out]. repeat split; auto.
        rewrite map_app, <- app_assoc. exact Hrun.
    - (* Wait *)
      destruct (s_lock st) as [u|] eqn:El; [exact HI|].
      split; intros u; cbn [s_pos s_threads s_lock].
      + destruct (Nat.eq_dec t u) as [<-|Hne]; [rewrite upd_same|rewrite upd_other by exact Hne; apply Ht].
        constructor; cbn [t_file t_prog t_pc t_out]; auto.
        exists p. unfold next_off, remaining; cbn [t_file t_prog t_pc t_out app]. rewrite (@len_nil A), Z.sub_0_r.
        repeat split; auto.
      + destruct (Nat.eq_dec t u) as [<-|Hne]; [rewrite upd_same|rewrite upd_other by exact Hne].
        * cbn; split; auto.
        * destruct HI as [_ Hl']. rewrite Hl', El. split; congruence.
    - (* Loop *)
      assert (Hlock : s_lock st = Some t) by (apply Hlt; exact I).
      assert (Hfin : forall d, zslice (content t) (sf_offset f) (size - len result) = [] -> d = OData result ->
                inv wholes (set_thread st t (mkT f prog (Rel d) out))).
      { intros d Ez ->. apply inv_step_own; [exact HI| |rewrite Eth; cbn; tauto].
        constructor; cbn [t_file t_prog t_pc t_out]; auto.
        exists p. unfold next_off, remaining; cbn [t_file t_prog t_pc t_out to_answer].
        rewrite Ez, (@len_nil A), Z.add_0_r in Hneg. rewrite Ez in Hrun. rewrite (@len_nil A) in Hrun. rewrite Z.add_0_r in Hrun. rewrite app_nil_r in Hrun. repeat split; auto. }
      destruct (Z.ltb_spec (len result) size) as [Hlts|Hge].
      + destruct (sf_read1_spec fc (sel t) f (s_pos st) (size - len result)) as (tmp & pos' & E & Htmp & Hle & Hend);
          auto; [lia|].
        unfold sf_read1 in E. destruct (Z.ltb_spec (size - len result) 0) as [Hx|_]; [lia|].
        destruct (find_stencil f (sf_offset f)) as [i|e] eqn:Efs; [|discriminate].
        destruct (Nat.leb_spec (length (sf_sizes f)) i) as [Hi|Hi].
        * apply Hfin; [|reflexivity]. assert (Hnil : tmp = []) by congruence. apply zslice_nil_ge, Hend, Hnil.
        * cbv zeta in E.
          destruct (Z.ltb_spec (sf_offset f - nth i (sf_cumsizes f) 0) 0) as [Hx|Hi0]; [discriminate|].
          destruct (Z.leb_spec (nth i (sf_sizes f) 0) (sf_offset f - nth i (sf_cumsizes f) 0)) as [Hx|Hi1]; [discriminate|].
          cbn [orb].
          apply inv_step_holder; [exact HI|exact Hlock|exact I|].
          constructor; cbn [t_file t_prog t_pc t_out]; auto.
          -- exists p. repeat split; auto.
          -- repeat split; auto; try lia. now rewrite upd_same.
      + apply Hfin; [|reflexivity]. apply zslice_le0; lia.
    - (* Sought *)
      assert (Hlock : s_lock st = Some t) by (apply Hlt; exact I).
      destruct Hso as (Hlts & Efs & Hi & Hins & Hpo).
      destruct (sf_read1_spec fc (sel t) f (s_pos st) (size - len result)) as (tmp & pos' & E & Htmp & Hle & Hend);
        auto; [lia|].
      unfold sf_read1 in E. destruct (Z.ltb_spec (size - len result) 0) as [Hx|_]; [lia|].
      rewrite Efs in E. destruct (Nat.leb_spec (length (sf_sizes f)) i) as [Hx|_]; [lia|]. cbv zeta in E.
      destruct (Z.ltb_spec (sf_offset f - nth i (sf_cumsizes f) 0) 0) as [Hx|_]; [lia|].
      destruct (Z.leb_spec (nth i (sf_sizes f) 0) (sf_offset f - nth i (sf_cumsizes f) 0)) as [Hx|_]; [lia|].
      rewrite upd_same in E. rewrite Hpo.
      set (rd := file_read _ _ _) in E |- *.
      assert (Erd : rd = tmp) by congruence. rewrite Erd. clearbody rd. subst rd. clear E.
      apply inv_step_holder; [exact HI|exact Hlock|destruct tmp; exact I|].
      destruct tmp as [|t0 tr] eqn:Et.
      + rewrite (@len_nil A), Z.add_0_r.
        assert (Ez : zslice (content t) (sf_offset f) (size - len result) = []) by (apply zslice_nil_ge; auto).
        rewrite Ez, (@len_nil A), Z.add_0_r in Hneg. rewrite Ez, (@len_nil A), Z.add_0_r, app_nil_r in Hrun.
        constructor; cbn [t_file t_prog t_pc t_out sf_offset set_offset]; auto using WF_set_offset; try lia.
        exists p. unfold next_off, remaining; cbn [t_file t_prog t_pc t_out to_answer sf_offset set_offset].
        rewrite !Z.add_0_r. repeat split; auto.
      + rewrite <- Et in *. assert (0 < len tmp) by (rewrite Et, len_cons; pose proof (len_nonneg tr); lia).
        clear t0 tr Et.
        assert (Es : zslice (content t) (sf_offset f) (size - len result) =
                     tmp ++ zslice (content t) (sf_offset f + len tmp) (size - len (result ++ tmp))).
        { rewrite len_app. replace (size - len result) with (len tmp + (size - (len result + len tmp))) by lia.
          rewrite (zslice_add (content t) (sf_offset f) (len tmp)) by lia. now rewrite <- Htmp. }
        rewrite Es, (len_app tmp) in Hneg. rewrite Es, (len_app tmp) in Hrun.
        constructor; cbn [t_file t_prog t_pc t_out]; auto using WF_set_offset.
        * cbn; lia.
        * exists p. unfold next_off, remaining; cbn [t_file t_prog t_pc t_out to_answer sf_offset set_offset].
          rewrite <- Z.add_assoc. rewrite <- app_assoc. repeat split; auto.
        * rewrite len_app. lia.
    - (* Rel *)
      assert (Hlock : s_lock st = Some t) by (apply Hlt; exact I).
      split; intros u; cbn [s_pos s_threads s_lock].
      + destruct (Nat.eq_dec t u) as [<-|Hne]; [rewrite upd_same|rewrite upd_other by exact Hne; apply Ht].
        constructor; cbn [t_file t_prog t_pc t_out]; auto.
        exists p. unfold next_off, remaining; cbn [t_file t_prog t_pc t_out app].
        repeat split; auto. rewrite map_app, <- app_assoc. exact Hrun.
      + destruct (Nat.eq_dec t u) as [<-|Hne]; [rewrite upd_same|rewrite upd_other by exact Hne].
        * cbn; split; [tauto|discriminate].
        * destruct HI as [_ Hl']. rewrite Hl', Hlock. split; congruence.
    - destruct Hdir.
  Qed.

  Lemma run_inv wholes sched st : inv wholes st -> inv wholes (run fc st sched).
  Proof.
    unfold run. revert st. induction sched as [|t r IH]; intros st H; [exact H|].
    cbn [fold_left]. apply IH, step_inv, H.
  Qed.
End Proofs.

Section Main.
  Context {A : Type}.
  Variable fc : nat -> list A.
  Variable cuts : nat -> list stencil.
  Variable progs : nat -> list call.
  Hypothesis Hin : forall t, Forall (inside fc) (cuts t).
  Hypothesis Hdoc : forall t, Forall documented (progs t).
  Hypothesis Hneg : forall t, no_negative_seek (joined fc (cuts t)) 0 (progs t).

  Lemma start_inv files pos :
    (forall t, sf_init (cuts t) = Ok (files t)) ->
    inv fc (fun t => selected (cuts t)) progs (start pos files (fun t => calls_of (progs t))).
  Proof.
    intros Hf. split; intros t; cbn [start s_pos s_threads s_lock].
    - destruct (sf_init_spec fc (cuts t) (Hin t)) as (s & Es & Hwf & Ho). rewrite Hf in Es. inversion Es; subst s.
      constructor; cbn [t_file t_prog t_pc t_out]; auto; [lia|].
      exists (progs t). unfold next_off, remaining; cbn [t_file t_prog t_pc t_out map app].
      rewrite Ho, joined_selected. repeat split; auto.
    - cbn. split; [tauto|discriminate].
  Qed.

  Lemma concurrent_reads files pos schedule :
    (forall t, sf_init (cuts t) = Ok (files t)) ->
    let st := run fc (start pos files (fun t => calls_of (progs t))) schedule in
    forall t, exists rest,
      mem_run (joined fc (cuts t)) 0 (progs t) = map to_answer (t_out (s_threads st t)) ++ rest /\
      (finished st t -> rest = []).
  Proof.
    intros Hf st t.
    assert (HI : inv fc (fun t => selected (cuts t)) progs st).
    { apply run_inv; [intros; now apply selected_inside|intros; apply selected_pos|now apply start_inv]. }
    destruct HI as [Ht _]. destruct (Ht t) as [_ _ (p & Hp & _ & _ & Hrun) _ _].
    exists (remaining fc (fun t => selected (cuts t)) t (s_threads st t) p).
    rewrite joined_selected in Hrun. split; [exact Hrun|].
    intros [Epc Epr]. rewrite Epr in Hp. destruct p; [|discriminate]. unfold remaining. rewrite Epc. reflexivity.
  Qed.

  (** Some thread can always move unless all have finished. *)
  Lemma no_deadlock files pos schedule :
    (forall t, sf_init (cuts t) = Ok (files t)) ->
    let st := run fc (start pos files (fun t => calls_of (progs t))) schedule in
    forall t, ~ finished st t ->
    exists u, ~ finished st u /\ ~ (exists size, t_pc (s_threads st u) = Wait size /\ s_lock st <> None).
  Proof.
    intros Hf st t Hnf.
    assert (HI : inv fc (fun t => selected (cuts t)) progs st).
    { apply run_inv; [intros; now apply selected_inside|intros; apply selected_pos|now apply start_inv]. }
    destruct HI as [_ Hl]. destruct (s_lock st) as [u|] eqn:El.
    - exists u. assert (Hh : holds (t_pc (s_threads st u))) by (now apply Hl). split.
      + intros [E _]. rewrite E in Hh. exact Hh.
      + intros (size & E & _). rewrite E in Hh. exact Hh.
    - exists t. split; [exact Hnf|]. intros (size & _ & H). congruence.
  Qed.
End Main.
