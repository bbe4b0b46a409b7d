From Coq Require Import Ascii String.
From Verif Require Import PyBase PyStr Command_Model.

Section Proofs.
  Context {T : Type} (decode : str -> option T) (fails : list T -> bool).

  Notation cplay := (cplay decode fails).
  Notation split_command_line := (split_command_line decode).

  Lemma decode_all_ok l ts : Forall2 (fun p t => decode p = Some t) l ts -> decode_all decode l = Ok ts.
  Proof. induction 1 as [|p t l ts E _ IH]; [reflexivity|]. cbn. now rewrite E, IH. Qed.

  Lemma last_newline s : without_last_newline (s ++ [newline]) = s.
  Proof. unfold without_last_newline. rewrite rev_unit. cbn. apply rev_involutive. Qed.

  Lemma no_last_newline s : (forall r, s <> r ++ [newline]) -> without_last_newline s = s.
  Proof.
    intros H. unfold without_last_newline. destruct (rev s) as [|c r] eqn:E; [reflexivity|].
    destruct (char_eqb_spec c newline) as [->|]; [|reflexivity]. exfalso. apply (H (rev r)).
    rewrite <- (rev_involutive s), E. reflexivity.
  Qed.

  Lemma split_line name d s : is_delimiter d = true ->
    split_command_line (name ++ d :: s) name = decode_all decode (split d (if char_eqb d space then without_last_newline s else s)).
  Proof.
    intros D. unfold split_command_line. rewrite starts_with_app. cbn [negb]. rewrite skipn_app, skipn_all, Nat.sub_diag.
    cbn [app skipn]. now rewrite D.
  Qed.

  Lemma play_writes chunks : forall f, c_closed f = false ->
    cplay f (map CWrite chunks) = (map (fun _ => true) chunks, mkC (c_buffer f ++ concat chunks) false (c_calls f)).
  Proof.
    induction chunks as [|c r IH]; intros f C.
    - cbn. rewrite app_nil_r. destruct f as [b cl ca]. cbn in *. now subst.
    - cbn [map Command_Model.cplay cstep]. unfold cwrite. rewrite C. cbn [is_ok].
      rewrite IH by reflexivity. cbn [concat c_buffer c_calls]. now rewrite <- app_assoc.
  Qed.

  Lemma play_app l1 : forall l2 f, cplay f (l1 ++ l2) =
    (fst (cplay f l1) ++ fst (cplay (snd (cplay f l1)) l2), snd (cplay (snd (cplay f l1)) l2)).
  Proof.
    induction l1 as [|o l1 IH]; intros l2 f; cbn [app Command_Model.cplay].
    - cbn. now destruct (cplay f l2).
    - destruct (cstep decode fails f o) as [b f1]. rewrite IH. destruct (cplay f1 l1) as [bs f2]. cbn [fst snd].
      now destruct (cplay f2 l2).
  Qed.

  Lemma closed_stays l : forall f, c_closed f = true -> snd (cplay f l) = f /\
    fst (cplay f l) = map (fun o => match o with CClose => true | CWrite _ => false end) l.
  Proof.
    induction l as [|o l IH]; intros f C; [auto|]. cbn [Command_Model.cplay].
    assert (cstep decode fails f o = (match o with CClose => true | CWrite _ => false end, f)) as ->.
    { destruct o; cbn [cstep]; unfold cwrite, cclose; rewrite C; reflexivity. }
    destruct (IH f C) as (A & B). destruct (cplay f l) as [bs f2]. cbn [fst snd map] in *. subst. auto.
  Qed.

  (** All histories: writes up to the first close, then nothing. *)
  Lemma split_history (l : list cop) : (exists chunks, l = map CWrite chunks) \/
    (exists chunks r, l = map CWrite chunks ++ CClose :: r).
  Proof.
    induction l as [|o l IH]; [left; now exists []|]. destruct o as [d|].
    - destruct IH as [(c & ->)|(c & r & ->)]; [left; now exists (d :: c)|right; now exists (d :: c), r].
    - right. now exists [], l.
  Qed.
End Proofs.
