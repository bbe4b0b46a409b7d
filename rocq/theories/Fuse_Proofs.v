(** Proofs about file handles. *)
From Coq Require Import Ascii String.
From Verif Require Import PyBase PyDict PyStr Path_Spec Overlay_Model Overlay_Spec Overlay_Proofs Overlay_Steps Overlay_Results
  Fuse_Model Fuse_Spec.

Section Fuse.
  Context {A : Type} (zero : A).
  Variable lower : location -> option (@lnode A).
  Variable lower_names : location -> list str.
  Variable attributes : @ostate A -> location -> Z * Z * Z * Z.
  Variable has_overlay : bool.
  Hypothesis low : tree_like LDir lower lower_names.

  Notation fstate := (@fstate A).
  Notation serve := (serve zero lower lower_names attributes has_overlay).
  Notation serve_all := (serve_all zero lower lower_names attributes has_overlay).
  Notation fopen := (fopen lower has_overlay).
  Notation fcreate := (fcreate lower has_overlay).
  Notation fwrite := (fwrite zero lower has_overlay).
  Notation fread := (fread lower has_overlay).
  Implicit Types st : fstate.

  Lemma hget_hset st fh h x : hget (hset st fh h) x = if Nat.eqb x fh then Some h else hget st x.
  Proof. unfold hget, hset; cbn [f_open]. apply (dget_dset Nat.eqb Nat.eqb_spec). Qed.

  (** Handles in the table have been given out, and the overlay is well kept. *)
  Definition handles_ok st : Prop :=
    (forall fh h, hget st fh = Some h -> fh <= f_last st) /\ well_kept (f_over st).

  Lemma mounted_ok : handles_ok (@mounted A).
  Proof. split; [intros fh h H; discriminate|apply fresh_kept]. Qed.

  Lemma write_fd_facts st data off fh r st1 : write_fd zero st data off fh = (r, st1) ->
    f_last st1 = f_last st /\ f_open st1 = f_open st /\ (well_kept (f_over st) -> well_kept (f_over st1)).
  Proof.
    unfold write_fd. destruct (hget st fh) as [h|]; [|now injection 1 as _ <-].
    destruct (h_file h); try (now injection 1 as _ <-). destruct (h_closed h); injection 1 as _ <-; auto.
  Qed.

  Lemma fwrite_facts st p data off fh r st1 : fwrite st p data off fh = (r, st1) ->
    f_last st1 = f_last st /\ (forall x, x <> fh -> hget st1 x = hget st x) /\
    (forall x, hget st1 x <> None -> hget st x <> None) /\ (well_kept (f_over st) -> well_kept (f_over st1)).
  Proof.
    intros H. unfold Fuse_Model.fwrite in H. destruct (hget st fh) as [h|] eqn:G; [|injection H as _ <-; auto].
    destruct has_overlay; cbn [negb] in H; [|injection H as _ <-; auto].
    destruct (is_fd (h_file h)).
    { apply write_fd_facts in H. destruct H as (L & O & W). unfold hget. rewrite O. auto. }
    destruct (h_write h); [|injection H as _ <-; auto].
    destruct (open_overlay lower (f_over st) p true) as [[i|e] o] eqn:OO.
    - assert (well_kept (f_over st) -> well_kept o) as Wo.
      { intros W. pose proof (step_kept zero lower lower_names attributes low (f_over st) (OpOpenWrite p) W) as K.
        cbn [step] in K. rewrite OO in K. exact K. }
      apply write_fd_facts in H. destruct H as (L & O & W). cbn [with_over hset f_last f_open f_over] in L, O, W.
      assert (forall x, hget st1 x = hget (hset st fh (mkH true (HFd i) false)) x) as G1 by (intros x; unfold hget; now rewrite O).
      split; [exact L|]. split; [|split; auto]; intros x Hx; rewrite G1, hget_hset in *.
      + destruct (Nat.eqb_spec x fh); congruence.
      + destruct (Nat.eqb_spec x fh) as [Ex|Ex]; [rewrite Ex; congruence|exact Hx].
    - assert (well_kept (f_over st) -> well_kept o) as Wo.
      { intros W. pose proof (step_kept zero lower lower_names attributes low (f_over st) (OpOpenWrite p) W) as K.
        cbn [step] in K. rewrite OO in K. exact K. }
      injection H as _ <-. cbn [with_over f_last f_over].
      assert (forall x, hget (with_over (hset st fh (mkH true (h_file h) true)) o) x =
                        hget (hset st fh (mkH true (h_file h) true)) x) as G1 by reflexivity.
      split; [reflexivity|]. split; [|split; auto]; intros x Hx; rewrite G1, hget_hset in *.
      + destruct (Nat.eqb_spec x fh); congruence.
      + destruct (Nat.eqb_spec x fh) as [Ex|Ex]; [rewrite Ex; congruence|exact Hx].
  Qed.

  Lemma add_facts st f w n st1 : add_new_handle st f w = (n, st1) -> n = S (f_last st) /\ f_last st1 = n /\
    f_over st1 = f_over st /\ forall x, hget st1 x = if Nat.eqb x n then Some (mkH w f false) else hget st x.
  Proof.
    unfold add_new_handle. injection 1 as <- <-. repeat split. intros x. unfold hget; cbn [f_open].
    apply (dget_dset Nat.eqb Nat.eqb_spec).
  Qed.

  Lemma fopen_facts st p w r st1 : fopen st p w = (r, st1) -> f_over st1 = f_over st /\
    match r with
    | Err _ => st1 = st
    | Ok n => n = S (f_last st) /\ f_last st1 = n /\ exists f, source_open lower has_overlay st p = Some f /\
              shown lower has_overlay st p <> None /\
              forall x, hget st1 x = if Nat.eqb x n then Some (mkH w f false) else hget st x
    end.
  Proof.
    unfold Fuse_Model.fopen. destruct (shown lower has_overlay st p) as [e|] eqn:S; [|now injection 1 as <- <-].
    destruct (source_open lower has_overlay st p) as [f|]; [|now injection 1 as <- <-].
    destruct (add_new_handle st f w) as [n st2] eqn:N. injection 1 as <- <-. apply add_facts in N.
    destruct N as (N1 & N2 & N3 & N4). split; [exact N3|]. split; [exact N1|]. split; [exact N2|].
    exists f. split; [reflexivity|]. split; [discriminate|exact N4].
  Qed.

  Lemma fcreate_facts st p m r st1 : fcreate st p m = (r, st1) -> (well_kept (f_over st) -> well_kept (f_over st1)) /\
    match r with
    | Err _ => f_last st1 = f_last st /\ f_open st1 = f_open st
    | Ok n => n = S (f_last st) /\ f_last st1 = n /\ exists i, create lower (f_over st) p m = (Ok i, f_over st1) /\
              forall x, hget st1 x = if Nat.eqb x n then Some (mkH false (HFd i) false) else hget st x
    end.
  Proof.
    unfold Fuse_Model.fcreate. destruct has_overlay; [|now injection 1 as <- <-].
    destruct (create lower (f_over st) p m) as [[i|e] o] eqn:C.
    - assert (well_kept (f_over st) -> well_kept o) as Wo.
      { intros W. pose proof (step_kept zero lower lower_names attributes low (f_over st) (OpCreate p m) W) as K.
        cbn [step] in K. rewrite C in K. exact K. }
      destruct (add_new_handle (with_over st o) (HFd i) false) as [n st2] eqn:N. injection 1 as <- <-. apply add_facts in N.
      destruct N as (N1 & N2 & N3 & N4). rewrite N3. split; [exact Wo|]. split; [exact N1|]. split; [exact N2|].
      exists i. split; [reflexivity|exact N4].
    - assert (well_kept (f_over st) -> well_kept o) as Wo.
      { intros W. pose proof (step_kept zero lower lower_names attributes low (f_over st) (OpCreate p m) W) as K.
        cbn [step] in K. rewrite C in K. exact K. }
      injection 1 as <- <-. auto.
  Qed.

  Lemma frelease_facts st fh r st1 : frelease st fh = (r, st1) -> f_last st1 = f_last st /\ f_over st1 = f_over st /\
    (forall x, x <> fh -> hget st1 x = hget st x) /\ (forall x, hget st1 x <> None -> hget st x <> None).
  Proof.
    unfold frelease. destruct (hget st fh) as [h|] eqn:G; [|injection 1 as _ <-; auto].
    intros H. assert (st1 = st \/ st1 = hset st fh (mkH (h_write h) (h_file h) true)) as [Q|Q].
    { destruct (h_file h), (h_closed h); injection H as _ <-; auto. }
    - subst st1. auto.
    - subst st1. split; [reflexivity|]. split; [reflexivity|]. split; intros x Hx.
      + rewrite hget_hset. destruct (Nat.eqb_spec x fh); congruence.
      + rewrite hget_hset in Hx. destruct (Nat.eqb_spec x fh) as [Ex|Ex]; [rewrite Ex; congruence|exact Hx].
  Qed.

  Lemma fother_facts st o r st1 : fother zero lower lower_names attributes has_overlay st o = (r, st1) ->
    f_last st1 = f_last st /\ f_open st1 = f_open st /\ (well_kept (f_over st) -> well_kept (f_over st1)).
  Proof.
    unfold fother. destruct has_overlay; [|injection 1 as _ <-; auto].
    destruct (step zero lower lower_names attributes (f_over st) o) as [r2 s] eqn:E. injection 1 as _ <-.
    cbn [with_over f_last f_open f_over]. split; [reflexivity|]. split; [reflexivity|].
    intros W. pose proof (step_kept zero lower lower_names attributes low (f_over st) o W) as K. now rewrite E in K.
  Qed.

  (** One call: handles only go up, new ones are above all others. *)
  Lemma serve_handles st c a st1 : handles_ok st -> serve st c = (a, st1) -> handles_ok st1 /\ f_last st <= f_last st1 /\
    match a with Ok (RHandle n) => f_last st < n /\ n <= f_last st1 | _ => True end.
  Proof.
    intros (K & W) H. destruct c as [p w|p m|p n o fh|p d o fh|fh|o]; cbn [Fuse_Model.serve] in H.
    - destruct (fopen st p w) as [r s] eqn:E. injection H as <- <-. apply fopen_facts in E. destruct E as (O & E).
      destruct r as [n|e]; cbn [answered].
      + destruct E as (E1 & E2 & f & _ & _ & E3). split; [|lia]. split; [|now rewrite O].
        intros x h. rewrite E3. destruct (Nat.eqb_spec x n) as [->|]; [intros _; lia|]. intros G. apply K in G. lia.
      + subst s. split; [split; auto|auto].
    - destruct (fcreate st p m) as [r s] eqn:E. injection H as <- <-. apply fcreate_facts in E. destruct E as (O & E).
      destruct r as [n|e]; cbn [answered].
      + destruct E as (E1 & E2 & i & _ & E3). split; [|lia]. split; [|now apply O].
        intros x h. rewrite E3. destruct (Nat.eqb_spec x n) as [->|]; [intros _; lia|]. intros G. apply K in G. lia.
      + destruct E as (E1 & E2). split; [|lia]. split; [|now apply O]. unfold hget. rewrite E1, E2. exact K.
    - injection H as <- <-. split; [split; auto|]. split; [auto|]. now destruct (fread st p n o fh).
    - destruct (fwrite st p d o fh) as [r s] eqn:E. injection H as <- <-. apply fwrite_facts in E.
      destruct E as (E1 & E2 & E3 & E4). split; [|split; [lia|now destruct r]]. split; [|now apply E4].
      intros x h G. rewrite E1. destruct (hget st x) as [h'|] eqn:G'; [now apply (K x h')|].
      exfalso. apply (E3 x); congruence.
    - destruct (frelease st fh) as [r s] eqn:E. injection H as <- <-. apply frelease_facts in E.
      destruct E as (E1 & E2 & E3 & E4). split; [|split; [lia|now destruct r]]. split; [|now rewrite E2].
      intros x h G. rewrite E1. destruct (hget st x) as [h'|] eqn:G'; [now apply (K x h')|].
      exfalso. apply (E4 x); congruence.
    - destruct (fother _ _ _ _ _ st o) as [r s] eqn:E. injection H as <- <-. apply fother_facts in E.
      destruct E as (E1 & E2 & E3). split; [|split; [lia|now destruct r]]. split; [|now apply E3].
      unfold hget. now rewrite E1, E2.
  Qed.

  Lemma serve_all_handles h : forall st l st1, handles_ok st -> serve_all st h = (l, st1) ->
    handles_ok st1 /\ f_last st <= f_last st1 /\ NoDup (handles l) /\
    (forall n, In n (handles l) -> f_last st < n /\ n <= f_last st1).
  Proof.
    induction h as [|c h IH]; intros st l st1 K H; cbn [Fuse_Model.serve_all] in H.
    - injection H as <- <-. split; [exact K|]. split; [auto|]. split; [constructor|]. intros n [].
    - destruct (serve st c) as [a s] eqn:E. destruct (serve_all s h) as [l' s'] eqn:R. injection H as <- <-.
      destruct (serve_handles st c a s K E) as (K1 & M1 & A1).
      destruct (IH s l' s' K1 R) as (K2 & M2 & N2 & B2). split; [exact K2|]. split; [lia|].
      destruct a as [[n|d|]|e]; cbn [handles flat_map app]; try (split; [exact N2|intros n Hn; specialize (B2 n Hn); lia]).
      fold (@handles A). split.
      + constructor; [|exact N2]. intros Hn. apply B2 in Hn. lia.
      + intros x [<-|Hx]; [lia|]. specialize (B2 x Hx). lia.
  Qed.

  Lemma serve_all_app h1 : forall h2 st, serve_all st (h1 ++ h2) =
    (fst (serve_all st h1) ++ fst (serve_all (snd (serve_all st h1)) h2), snd (serve_all (snd (serve_all st h1)) h2)).
  Proof.
    induction h1 as [|c h1 IH]; intros h2 st; cbn [app Fuse_Model.serve_all].
    - cbn [fst snd app]. now destruct (serve_all st h2).
    - destruct (serve st c) as [a s]. rewrite IH. destruct (serve_all s h1) as [l s1]. cbn [fst snd].
      now destruct (serve_all s1 h2).
  Qed.

  (** Calls on other handles, and reading, leave an entry alone. *)
  Lemma serve_entry st c fh h : handles_ok st -> hget st fh = Some h -> c <> FRelease fh ->
    (forall p d o, c <> FWrite p d o fh) -> hget (snd (serve st c)) fh = Some h.
  Proof.
    intros (K & W) G NR NW. pose proof (K fh h G) as Le.
    destruct c as [p w|p m|p n o x|p d o x|x|o]; cbn [Fuse_Model.serve].
    - destruct (fopen st p w) as [r s] eqn:E. apply fopen_facts in E. destruct E as (_ & E). cbn [snd].
      destruct r as [n|e]; [|now subst s]. destruct E as (E1 & _ & f & _ & _ & ->).
      destruct (Nat.eqb_spec fh n); [lia|exact G].
    - destruct (fcreate st p m) as [r s] eqn:E. apply fcreate_facts in E. destruct E as (_ & E). cbn [snd].
      destruct r as [n|e]; [|unfold hget; now rewrite (proj2 E)]. destruct E as (E1 & _ & i & _ & ->).
      destruct (Nat.eqb_spec fh n); [lia|exact G].
    - exact G.
    - destruct (fwrite st p d o x) as [r s] eqn:E. apply fwrite_facts in E. cbn [snd].
      destruct E as (_ & E & _). rewrite E; [exact G|]. intros ->. now apply (NW p d o).
    - destruct (frelease st x) as [r s] eqn:E. apply frelease_facts in E. cbn [snd].
      destruct E as (_ & _ & E & _). rewrite E; [exact G|]. intros ->. now apply NR.
    - destruct (fother _ _ _ _ _ st o) as [r s] eqn:E. apply fother_facts in E. cbn [snd]. unfold hget. now rewrite (proj1 (proj2 E)).
  Qed.

  Lemma serve_all_entry fh h hist : forall st, handles_ok st -> hget st fh = Some h -> keeps fh hist -> not_written fh hist ->
    handles_ok (snd (serve_all st hist)) /\ hget (snd (serve_all st hist)) fh = Some h.
  Proof.
    induction hist as [|c r IH]; intros st K G R N; [auto|]. cbn [Fuse_Model.serve_all].
    destruct (serve st c) as [a s] eqn:E. destruct (serve_all s r) as [l s'] eqn:E2. cbn [snd].
    destruct (serve_handles st c a s K E) as (K1 & _).
    assert (hget s fh = Some h) as G1.
    { pose proof (serve_entry st c fh h K G) as X. rewrite E in X. apply X.
      - intros ->. apply R. now left.
      - intros p d o ->. apply (N p d o). now left. }
    specialize (IH s K1 G1). rewrite E2 in IH. apply IH.
    - intros I. apply R. now right.
    - intros p d o I. apply (N p d o). now right.
  Qed.

  (** An open descriptor stays what it is whatever is written through it. *)
  Lemma serve_fd st c fh w i : handles_ok st -> hget st fh = Some (mkH w (HFd i) false) -> c <> FRelease fh ->
    hget (snd (serve st c)) fh = Some (mkH w (HFd i) false).
  Proof.
    intros K G NR. destruct c as [p w'|p m|p n o x|p d o x|x|o];
      try (apply serve_entry; [exact K|exact G|exact NR|discriminate]).
    destruct (Nat.eq_dec x fh) as [->|Nx].
    - cbn [Fuse_Model.serve]. unfold Fuse_Model.fwrite. rewrite G. destruct has_overlay; cbn [negb snd]; [|exact G].
      cbn [h_file is_fd]. unfold write_fd. rewrite G. cbn [h_file h_closed]. unfold write. cbn [snd]. exact G.
    - apply serve_entry; [exact K|exact G|exact NR|]. intros p' d' o' [= _ _ _ X]. congruence.
  Qed.

  Lemma serve_all_fd fh w i hist : forall st, handles_ok st -> hget st fh = Some (mkH w (HFd i) false) -> keeps fh hist ->
    handles_ok (snd (serve_all st hist)) /\ hget (snd (serve_all st hist)) fh = Some (mkH w (HFd i) false).
  Proof.
    induction hist as [|c r IH]; intros st K G R; [auto|]. cbn [Fuse_Model.serve_all].
    destruct (serve st c) as [a s] eqn:E. destruct (serve_all s r) as [l s'] eqn:E2. cbn [snd].
    destruct (serve_handles st c a s K E) as (K1 & _).
    assert (hget s fh = Some (mkH w (HFd i) false)) as G1.
    { pose proof (serve_fd st c fh w i K G) as X. rewrite E in X. apply X. intros ->. apply R. now left. }
    specialize (IH s K1 G1). rewrite E2 in IH. apply IH. intros I. apply R. now right.
  Qed.

  Definition file_of (x : @place A) : hfile := match x with InFolder i => HReader i | InArchive c => HMember c end.

  Lemma source_place st p f : source_open lower has_overlay st p = Some f ->
    exists x, place_of lower has_overlay (f_over st) p = Some x /\ f = file_of x.
  Proof.
    unfold source_open, place_of. destruct has_overlay.
    - unfold union_open. destruct p as [|a p]; [discriminate|].
      destruct (oget (o_fs (f_over st)) (a :: p)) as [[|i|t]|]; try discriminate.
      + injection 1 as <-. now exists (InFolder i).
      + destruct (lower (a :: p)) as [[|c|t]|]; try discriminate. injection 1 as <-. now exists (InArchive c).
    - destruct (lower p) as [[|c|t]|]; try discriminate. injection 1 as <-. now exists (InArchive c).
  Qed.

  Lemma file_of_content st x : file_content st (file_of x) = content_at (f_over st) x.
  Proof. now destruct x. Qed.

  Lemma file_of_fd x : is_fd (file_of x) = false.
  Proof. now destruct x. Qed.
End Fuse.
