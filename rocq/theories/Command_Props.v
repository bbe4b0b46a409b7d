(** C35: the control file. *)
From Coq Require Import Ascii String.
From Verif Require Import PyBase PyStr Command_Model Command_Proofs.

(** The delimiters: NUL, newline and space. *)
Definition delimiters : list ascii := ["000"; "010"; " "]%char.

Lemma delimiters_spec d : In d delimiters <-> is_delimiter d = true.
Proof.
  change delimiters with [nul; newline; space]. unfold is_delimiter. rewrite !orb_true_iff. cbn [In].
  destruct (char_eqb_spec d nul), (char_eqb_spec d newline), (char_eqb_spec d space); intuition congruence.
Qed.

Section Claims.
  Context {T : Type} (decode : str -> option T) (fails : list T -> bool).
  Notation cplay := (cplay decode fails).
  Notation calls l := (c_calls (snd (cplay (new_file) l))).

  (** C35: a nonempty list of arguments, joined by NUL, newline or space, behind the name of the program, written in any
      pieces: on closing, the callback is called once, with the arguments.  With spaces, a newline at the very end is the one
      [echo] adds, so the last argument must not end in one. *)
  Theorem C35_arguments d parts args chunks rest : In d delimiters -> parts <> [] ->
    Forall (fun p => ~ In d p) parts -> Forall2 (fun p a => decode p = Some a) parts args ->
    (d = " "%char -> forall r, last parts [] <> r ++ ["010"%char]) ->
    concat chunks = $"ratarmount" ++ [d] ++ join [d] parts ->
    calls (map CWrite chunks ++ CClose :: rest) = [args].
  Proof.
    intros D NE F D2 L E. apply delimiters_spec in D. rewrite play_app. cbn [snd]. rewrite play_writes by reflexivity. cbn [snd Command_Model.cplay].
    cbn [cstep]. unfold cclose. cbn [c_closed c_buffer new_file app c_calls]. rewrite E. cbn [app].
    change ($"ratarmount" ++ d :: join [d] parts) with ($"ratarmount" ++ (d :: join [d] parts)).
    assert (split_command_line decode ($"ratarmount" ++ d :: join [d] parts) $"ratarmount" = Ok args) as X.
    { rewrite split_line by exact D. assert ((if char_eqb d space then without_last_newline (join [d] parts) else join [d] parts) = join [d] parts) as ->.
      { destruct (char_eqb_spec d space) as [Es|]; [|reflexivity]. apply no_last_newline. intros r Er.
        destruct (exists_last NE) as (ps & p & Ep). subst parts. rewrite last_last in L. specialize (L Es).
        destruct ps as [|p0 ps].
        - cbn in Er. exact (L r Er).
        - rewrite join_app in Er by discriminate. cbn [join] in Er.
          destruct p as [|x p] using rev_ind.
          + rewrite app_nil_r in Er. apply app_inj_tail in Er as [_ Er]. subst d. discriminate.
          + rewrite !app_assoc in Er. apply app_inj_tail in Er as [_ Er]. subst x. exact (L p eq_refl). }
      rewrite split_join by assumption. now apply decode_all_ok. }
    destruct ($"ratarmount" ++ d :: join [d] parts) as [|c0 s0] eqn:Eb; [discriminate Eb|]. rewrite X.
    cbn [is_ok app]. match goal with |- context [cplay ?f rest] => destruct (closed_stays decode fails rest f eq_refl) as (A & _); destruct (cplay f rest) as [bs f2] end.
    cbn [snd] in *. now rewrite A.
  Qed.

  (** C35: with spaces, one newline at the end (from [echo]) makes no difference. *)
  Theorem C35_echo parts args chunks rest : parts <> [] ->
    Forall (fun p => ~ In " "%char p) parts -> Forall2 (fun p a => decode p = Some a) parts args ->
    concat chunks = $"ratarmount" ++ " "%char :: join [" "%char] parts ++ ["010"%char] ->
    calls (map CWrite chunks ++ CClose :: rest) = [args].
  Proof.
    intros NE F D2 E. rewrite play_app. cbn [snd]. rewrite play_writes by reflexivity. cbn [snd Command_Model.cplay].
    cbn [cstep]. unfold cclose. cbn [c_closed c_buffer new_file app c_calls]. rewrite E.
    assert (split_command_line decode ($"ratarmount" ++ space :: join [space] parts ++ [newline]) $"ratarmount" = Ok args) as X.
    { rewrite split_line by reflexivity. change (char_eqb space space) with true. cbn iota. rewrite last_newline, split_join by assumption.
      now apply decode_all_ok. }
    change ($"ratarmount" ++ " "%char :: join [" "%char] parts ++ ["010"%char]) with ($"ratarmount" ++ space :: join [space] parts ++ [newline]).
    destruct ($"ratarmount" ++ space :: join [space] parts ++ [newline]) as [|c0 s0] eqn:Eb; [discriminate Eb|]. rewrite X.
    cbn [is_ok app]. match goal with |- context [cplay ?f rest] => destruct (closed_stays decode fails rest f eq_refl) as (A & _); destruct (cplay f rest) as [bs f2] end.
    cbn [snd] in *. now rewrite A.
  Qed.

  (** C35: whatever is written, if it is not the name of the program, alone or followed by a delimiter, then closing fails
      and the callback is never called. *)
  Theorem C35_rejected chunks rest :
    concat chunks <> [] -> concat chunks <> $"ratarmount" ->
    (forall d s, In d delimiters -> concat chunks <> $"ratarmount" ++ d :: s) ->
    calls (map CWrite chunks ++ CClose :: rest) = [] /\
    nth_error (fst (cplay new_file (map CWrite chunks ++ CClose :: rest))) (length chunks) = Some false.
  Proof.
    intros N0 N1 N2. rewrite play_app. cbn [snd fst]. rewrite play_writes by reflexivity. cbn [snd fst Command_Model.cplay].
    cbn [cstep]. unfold cclose. cbn [c_closed c_buffer new_file app c_calls].
    assert (split_command_line decode (concat chunks) $"ratarmount" = Err ValueError) as X.
    { unfold split_command_line. destruct (starts_with $"ratarmount" (concat chunks)) eqn:S; [|reflexivity]. cbn [negb].
      apply starts_with_spec in S as (t & Et). rewrite Et. rewrite skipn_app, skipn_all, Nat.sub_diag. cbn [app skipn].
      destruct t as [|d t]; [exfalso; apply N1; rewrite Et; reflexivity|].
      destruct (is_delimiter d) eqn:D; [exfalso; exact (N2 d t (proj2 (delimiters_spec d) D) Et)|reflexivity]. }
    destruct (concat chunks) as [|c0 s0] eqn:Eb; [congruence|]. rewrite X.
    match goal with |- context [cplay ?f rest] => destruct (closed_stays decode fails rest f eq_refl) as (A & _); destruct (cplay f rest) as [bs f2] end.
    cbn [fst snd] in *. split; [now rewrite A|]. rewrite nth_error_app2; rewrite map_length; [|lia]. now rewrite Nat.sub_diag.
  Qed.

  (** C35: in no history is the callback called more than once, nor before the file is closed. *)
  Theorem C35_at_most_once l : length (calls l) <= 1 /\ (~ In CClose l -> calls l = []).
  Proof.
    destruct (split_history l) as [(chunks & ->)|(chunks & r & ->)].
    - rewrite play_writes by reflexivity. cbn. auto.
    - split; [|intros H; exfalso; apply H, in_or_app; right; now left].
      rewrite play_app. cbn [snd]. rewrite play_writes by reflexivity. cbn [snd Command_Model.cplay].
      destruct (cstep decode fails (mkC (c_buffer new_file ++ concat chunks) false (c_calls new_file)) CClose) as [b f1] eqn:E.
      assert (c_closed f1 = true /\ length (c_calls f1) <= 1) as (C1 & L1).
      { cbn [cstep] in E. unfold cclose in E. cbn [c_closed c_buffer new_file app c_calls] in E.
        destruct (concat chunks); [injection E as _ <-; cbn; auto|].
        destruct (split_command_line decode _ _) as [args|e]; injection E as _ <-; cbn; auto. }
      destruct (closed_stays decode fails r f1 C1) as (A & _). destruct (cplay f1 r) as [bs f2]. cbn [snd] in *. now rewrite A.
  Qed.

  (** What is written may be cut into pieces in any way. *)
  Theorem C35_chunks_irrelevant a b : concat a = concat b ->
    calls (map CWrite a ++ [CClose]) = calls (map CWrite b ++ [CClose]).
  Proof. intros E. rewrite !play_app. cbn [snd]. rewrite !play_writes by reflexivity. cbn [snd]. now rewrite E. Qed.
End Claims.

(** Where the full statement fails: an empty argument list cannot be written.  The bare name gives the name itself as an
    argument, the name and a delimiter give an empty argument. *)
Theorem C35_no_arguments_refuted :
  c_calls (snd (cplay (@Some str) (fun _ => false) new_file [CWrite $"ratarmount"; CClose])) = [[ $"ratarmount" ]] /\
  c_calls (snd (cplay (@Some str) (fun _ => false) new_file [CWrite ($"ratarmount" ++ [nul]); CClose])) = [[ [] ]].
Proof. vm_compute. auto. Qed.

(** ** Examples *)
Definition hist (l : list string) : list cop := map CWrite (map list_ascii_of_string l) ++ [CClose].

Example C35_example : c_calls (snd (cplay (@Some str) (fun _ => false) new_file
    (hist ["ratar"; "mount -u"; " "; " my file"]%string))) = [[ $"-u"; []; $"my"; $"file" ]].
Proof. vm_compute. reflexivity. Qed.
Example C35_example_rejected : cplay (@Some str) (fun _ => false) new_file (hist ["ratarmountx"]%string) =
  ([true; false], mkC $"ratarmountx" true []).
Proof. vm_compute. reflexivity. Qed.
Example C35_hypotheses : In nul delimiters /\ Forall (fun p => ~ In nul p) [$"-u"; $"a b"] /\
  concat [$"ratarmount" ++ [nul]; $"-u" ++ [nul]; $"a b"] = $"ratarmount" ++ [nul] ++ join [nul] [$"-u"; $"a b"].
Proof. split; [now left|]. split; [|reflexivity]. repeat apply Forall_cons; try apply Forall_nil; cbn; intuition discriminate. Qed.

Print Assumptions C35_arguments.
Print Assumptions C35_echo.
Print Assumptions C35_rejected.
Print Assumptions C35_at_most_once.
Print Assumptions C35_chunks_irrelevant.
Print Assumptions C35_no_arguments_refuted.
