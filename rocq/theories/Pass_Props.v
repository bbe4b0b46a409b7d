(** Property C75: an encrypted archive is opened with the right one of the given passwords. *)
From Coq Require Import Ascii String.
From Verif Require Import PyBase PyStr Pass_Model Pass_Spec.

Lemma filter_first {E} (is_file : E -> bool) files f : first_file is_file files f -> exists rest, filter is_file files = f :: rest.
Proof.
  intros (b & a & -> & F & B). rewrite filter_app. cbn [filter]. rewrite F. replace (filter is_file b) with (@nil E); [now eexists|].
  symmetry. clear F a. induction b as [|x b IH]; [reflexivity|]. cbn [filter]. rewrite (B x) by now left. apply IH. intros g I. apply B. now right.
Qed.
Lemma filter_none {E} (is_file : E -> bool) files : (forall f, In f files -> is_file f = false) -> filter is_file files = [].
Proof. induction files as [|x l IH]; intros H; [reflexivity|]. cbn [filter]. rewrite (H x) by now left. apply IH. intros f I. apply H. now right. Qed.
Lemma first_file_exists {E} (is_file : E -> bool) files : (exists f, first_file is_file files f) \/ forall f, In f files -> is_file f = false.
Proof.
  induction files as [|x l IH]; [right; intros f []|]. destruct (is_file x) eqn:X.
  - left. exists x, [], l. split; [reflexivity|]. split; [exact X|intros g []].
  - destruct IH as [(f & b & a & -> & F & B)|N]; [left|right; intros f [<-|I]; auto].
    exists f, (x :: b), a. split; [reflexivity|]. split; [exact F|]. intros g [<-|I]; auto.
Qed.
Lemma first_that_cons {X} (good : X -> Prop) x l p : ~ good x -> (first_that good (x :: l) p <-> first_that good l p).
Proof.
  intros N. split.
  - intros ([|y b] & a & E & G & B); [injection E as -> _; contradiction|]. injection E as -> E. exists b, a. split; [exact E|]. split; [exact G|]. intros q I. apply B. now right.
  - intros (b & a & -> & G & B). exists (x :: b), a. split; [reflexivity|]. split; [exact G|]. intros q [<-|I]; auto.
Qed.
Lemma first_that_head {X} (good : X -> Prop) x l p : good x -> (first_that good (x :: l) p <-> p = x).
Proof.
  intros G. split.
  - intros ([|y b] & a & E & Gp & B); [now injection E|]. injection E as <- E. exfalso. apply (B x); [now left|exact G].
  - intros ->. exists [], l. split; [reflexivity|]. split; [exact G|intros q []].
Qed.

Section Backends.
  Context {entry : Type}.
  Variable infolist : option str -> list entry.
  Variable is_file : entry -> bool.
  Variable opens : option str -> entry -> outcome.

  Lemma try_seven_spec f cs r : try_seven opens f cs = r ->
    (forall p, r = Ok p <-> first_that (fun c => opens c f = Opened) cs p) /\ (r = Err RuntimeError <-> forall c, In c cs -> opens c f <> Opened).
  Proof.
    intros <-. induction cs as [|c cs (IH1 & IH2)]; cbn [try_seven].
    - split; [|split; [intros _ c []|reflexivity]]. intros p. split; [discriminate|intros ([|] & a & E & _); discriminate].
    - destruct (opens c f) eqn:O.
      + split; [intros p; rewrite first_that_head by exact O; split; congruence|]. split; [discriminate|]. intros A. exfalso. apply (A c); [now left|exact O].
      + split; [intros p; rewrite first_that_cons by congruence; apply IH1|]. rewrite IH2. split; [intros A x [<-|I]; [congruence|auto]|intros A x I; apply A; now right].
      + split; [intros p; rewrite first_that_cons by congruence; apply IH1|]. rewrite IH2. split; [intros A x [<-|I]; [congruence|auto]|intros A x I; apply A; now right].
  Qed.
  Lemma try_zip_seven f ps : ~ In [] ps -> forall set, try_zip opens set f (map Some ps) = try_seven opens f (map Some ps).
  Proof.
    induction ps as [|p ps IH]; intros N set; [reflexivity|]. cbn [map try_zip try_seven]. destruct p as [|c p]; [exfalso; apply N; now left|].
    cbn [set_zip]. destruct (opens (Some (c :: p)) f); [reflexivity| |]; apply IH; intros I; apply N; now right.
  Qed.
  Lemma try_zip_none f ps : ~ In [] ps -> try_zip opens None f (None :: map Some ps) = try_seven opens f (None :: map Some ps).
  Proof. intros N. cbn [try_zip try_seven set_zip]. destruct (opens None f); [reflexivity| |]; now apply try_zip_seven. Qed.

  Lemma show_spec ps : forall set,
    (forall p, first_that (fun p => infolist (Some p) <> []) ps p -> show_entries infolist set ps = (Some p, true)) /\
    ((forall p, In p ps -> infolist (Some p) = []) -> snd (show_entries infolist set ps) = false).
  Proof.
    induction ps as [|q ps IH]; intros set; cbn [show_entries].
    - split; [intros p ([|] & a & E & _); discriminate|reflexivity].
    - destruct (infolist (Some q)) eqn:Q.
      + destruct (IH (Some q)) as (I1 & I2). split; [intros p F; apply first_that_cons in F; [now apply I1|now intros G]|]. intros A. apply I2. intros p I. apply A. now right.
      + split; [intros p F; apply first_that_head in F; [now rewrite F|congruence]|]. intros A. rewrite A in Q by now left. discriminate.
  Qed.

  Lemma nonempty_first files f : first_file is_file files f -> files <> [].
  Proof. intros (b & a & -> & _). now destruct b. Qed.

  (** ZIP and 7z with a readable directory: no password is preferred, then the passwords in the given order; the first one that opens the first
      file is used, and there is an error if none does.  (An empty password is never used for ZIP.) *)
  Theorem C75_zip_choice : forall passwords f, first_file is_file (infolist None) f -> ~ In [] passwords ->
    (forall p, find_zip infolist is_file opens passwords = Ok p <-> first_that (fun p => opens p f = Opened) (None :: map Some passwords) p) /\
    (find_zip infolist is_file opens passwords = Err RuntimeError <-> opens None f <> Opened /\ forall p, In p passwords -> opens (Some p) f <> Opened).
  Proof.
    intros ps f F NE. unfold find_zip. destruct (filter_first is_file _ _ F) as (rest & Ff). pose proof (nonempty_first _ _ F) as N.
    destruct (infolist None) as [|x l] eqn:I; [congruence|]. rewrite Ff, try_zip_none by exact NE.
    destruct (try_seven_spec f (None :: map Some ps) _ eq_refl) as (T1 & T2). split; [exact T1|]. rewrite T2. split.
    - intros A. split; [apply A; now left|]. intros p Ip. apply A. right. now apply in_map.
    - intros (A1 & A2) c [<-|Ic]; [exact A1|]. apply in_map_iff in Ic as (p & <- & Ip). now apply A2.
  Qed.

  Theorem C75_seven_choice : forall passwords f, first_file is_file (infolist None) f ->
    (forall p, find_seven infolist is_file opens passwords = Ok p <-> first_that (fun p => opens p f = Opened) (None :: map Some passwords) p) /\
    (find_seven infolist is_file opens passwords = Err RuntimeError <-> opens None f <> Opened /\ forall p, In p passwords -> opens (Some p) f <> Opened).
  Proof.
    intros ps f F. unfold find_seven. destruct (filter_first is_file _ _ F) as (rest & Ff). pose proof (nonempty_first _ _ F) as N.
    destruct (infolist None) as [|x l] eqn:I; [congruence|]. rewrite Ff.
    destruct (try_seven_spec f (None :: map Some ps) _ eq_refl) as (T1 & T2). split; [exact T1|]. rewrite T2. split.
    - intros A. split; [apply A; now left|]. intros p Ip. apply A. right. now apply in_map.
    - intros (A1 & A2) c [<-|Ic]; [exact A1|]. apply in_map_iff in Ic as (p & <- & Ip). now apply A2.
  Qed.

  (** RAR: nothing is done without need; else the first given password that opens the first file is used, as long as the wrong ones are refused. *)
  Theorem C75_rar_choice : forall passwords f, first_file is_file (infolist None) f -> (forall p e, In p passwords -> opens (Some p) f <> Fails e) ->
    find_rar infolist is_file opens false passwords = Ok None /\
    (forall p, find_rar infolist is_file opens true passwords = Ok (Some p) <-> first_that (fun p => opens (Some p) f = Opened) passwords p) /\
    (find_rar infolist is_file opens true passwords = Err RuntimeError <-> forall p, In p passwords -> opens (Some p) f <> Opened).
  Proof.
    intros ps f F NF. split; [reflexivity|]. unfold find_rar. cbn [negb]. destruct (filter_first is_file _ _ F) as (rest & Ff). pose proof (nonempty_first _ _ F) as N.
    destruct (infolist None) as [|x l] eqn:I; [congruence|]. rewrite Ff. clear - NF.
    induction ps as [|q ps IH]; cbn [try_rar].
    - split; [|split; [intros _ p []|reflexivity]]. intros p. split; [discriminate|intros ([|] & a & E & _); discriminate].
    - destruct IH as (I1 & I2); [intros p e J; apply NF; now right|]. destruct (opens (Some q) f) eqn:O.
      + split; [intros p; rewrite first_that_head by exact O; split; congruence|]. split; [discriminate|]. intros A. exfalso. apply (A q); [now left|exact O].
      + split; [intros p; rewrite first_that_cons by congruence; apply I1|]. rewrite I2. split; [intros A y [<-|J]; [congruence|auto]|intros A y J; apply A; now right].
      + exfalso. apply (NF q e); [now left|exact O].
  Qed.

  (** If all files are protected alike, then every file of the mounted archive can be opened; and it is mounted if one of the passwords fits. *)
  Theorem C75_all_files_partial : forall passwords, alike is_file opens (infolist None) -> ~ In [] passwords -> infolist None <> [] ->
    (forall p g, (find_zip infolist is_file opens passwords = Ok p \/ find_seven infolist is_file opens passwords = Ok p) ->
       In g (infolist None) -> is_file g = true -> opens p g = Opened) /\
    (forall p g, In g (infolist None) -> is_file g = true -> In p passwords -> opens (Some p) g = Opened ->
       (exists q, find_zip infolist is_file opens passwords = Ok q) /\ (exists q, find_seven infolist is_file opens passwords = Ok q)).
  Proof.
    intros ps Al NE N. assert (Q : forall g, In g (infolist None) -> is_file g = true -> exists f, first_file is_file (infolist None) f).
    { intros g G1 G2. destruct (first_file_exists is_file (infolist None)) as [X|X]; [exact X|]. rewrite X in G2 by exact G1. discriminate. }
    assert (InF : forall f, first_file is_file (infolist None) f -> In f (infolist None) /\ is_file f = true).
    { intros f (b & a & E & F & _). split; [rewrite E; apply in_or_app; right; now left|exact F]. }
    split.
    - intros p g R G1 G2. destruct (Q g G1 G2) as (f & F). destruct (InF f F) as (F1 & F2).
      assert (O : opens p f = Opened).
      { destruct R as [R|R]; [apply (C75_zip_choice ps f F NE) in R|apply (C75_seven_choice ps f F) in R]; destruct R as (b & a & _ & O & _); exact O. }
      exact (Al p f g F1 G1 F2 G2 O).
    - intros p g G1 G2 Ip O. destruct (Q g G1 G2) as (f & F). destruct (InF f F) as (F1 & F2).
      pose proof (Al (Some p) g f G1 F1 G2 F2 O) as Of.
      assert (T : exists q, try_seven opens f (None :: map Some ps) = Ok q).
      { destruct (try_seven opens f (None :: map Some ps)) as [q|e] eqn:T; [now exists q|]. exfalso.
        assert (e = RuntimeError) as ->. { clear - T. revert T. generalize (None :: map (@Some str) ps). intros l. induction l as [|c l IH]; cbn [try_seven]; [congruence|]. now destruct (opens c f). }
        destruct (try_seven_spec f (None :: map Some ps) _ T) as (_ & T2). apply (proj1 T2 eq_refl (Some p)); [right; now apply in_map|exact Of]. }
      destruct T as (q & T). destruct (filter_first is_file _ _ F) as (rest & Ff). unfold find_zip, find_seven. destruct (infolist None) as [|x l]; [congruence|].
      rewrite Ff, try_zip_none by exact NE. rewrite T. split; now exists q.
  Qed.

  (** If the directory is encrypted, too, then the first password that shows any entries is used. *)
  Theorem C75_encrypted_directory : forall passwords p, infolist None = [] -> first_that (fun p => infolist (Some p) <> []) passwords p ->
    find_zip infolist is_file opens passwords = Ok (Some p) /\ find_seven infolist is_file opens passwords = Ok (Some p) /\
    find_rar infolist is_file opens true passwords = Ok (Some p).
  Proof.
    intros ps p E F. unfold find_zip, find_seven, find_rar. rewrite E. cbn [negb]. rewrite (proj1 (show_spec ps None) p F). repeat split.
  Qed.
End Backends.
Print Assumptions C75_zip_choice.
Print Assumptions C75_seven_choice.
Print Assumptions C75_rar_choice.
Print Assumptions C75_all_files_partial.
Print Assumptions C75_encrypted_directory.

(** SQLAR: the first password that decrypts the table, else an error. *)
Theorem C75_sqlar_choice : forall check passwords,
  (check None = true -> find_sqlar check true passwords = Ok None) /\
  (check None = false -> (forall p, find_sqlar check true passwords = Ok (Some p) <-> first_that (fun p => check (Some p) = true) passwords p) /\
     (find_sqlar check true passwords = Err RuntimeError <-> forall p, In p passwords -> check (Some p) <> true)).
Proof.
  intros check ps. split; [intros E; unfold find_sqlar; now rewrite E|]. intros E. unfold find_sqlar. rewrite E.
  induction ps as [|q ps (I1 & I2)]; cbn [find].
  - split; [|split; [intros _ p []|reflexivity]]. intros p. split; [discriminate|intros ([|] & a & Q & _); discriminate].
  - destruct (check (Some q)) eqn:C.
    + split; [intros p; rewrite first_that_head by exact C; split; congruence|]. split; [discriminate|]. intros A. exfalso. apply (A q); [now left|exact C].
    + split; [intros p; rewrite first_that_cons by congruence; apply I1|]. rewrite I2. split; [intros A y [<-|J]; [congruence|auto]|intros A y J; apply A; now right].
Qed.
Print Assumptions C75_sqlar_choice.

(** ** An archive of files that are protected by one password; a file is its number *)
Definition ex_opens (p : option str) (f : nat) : outcome := match p with Some p => if str_eqb p $"right" then Opened else Refused | None => Refused end.
Example C75_nontrivial : alike (Nat.ltb 0) ex_opens [0; 1; 2]%nat /\ first_file (Nat.ltb 0) [0; 1; 2]%nat 1%nat /\
  find_zip (fun _ => [0; 1; 2]%nat) (Nat.ltb 0) ex_opens [$"wrong"; $"right"; $"other"] = Ok (Some $"right") /\
  find_rar (fun _ => [0; 1; 2]%nat) (Nat.ltb 0) ex_opens true [$"wrong"; $"right"; $"other"] = Ok (Some $"right") /\
  find_seven (fun _ => [0; 1; 2]%nat) (Nat.ltb 0) ex_opens [$"wrong"] = Err RuntimeError.
Proof.
  split; [intros p f g _ _ _ _ H; exact H|]. split; [|repeat split].
  exists [0%nat], [2%nat]. split; [reflexivity|]. split; [reflexivity|]. intros g [<-|[]]. reflexivity.
Qed.

(** ** Where the property fails *)
(** An archive in which only a later file is encrypted: the given password would open all files, but it is not used (ZIP, 7z), or a wrong one is used
    (RAR). *)
Theorem C75_mixed_refuted : exists (opens : option str -> nat -> outcome) passwords right,
  In right passwords /\ (forall f, opens (Some right) f = Opened) /\
  (exists p, find_zip (fun _ => [1; 2]%nat) (fun _ => true) opens passwords = Ok p /\ opens p 2%nat <> Opened) /\
  (exists p, find_seven (fun _ => [1; 2]%nat) (fun _ => true) opens passwords = Ok p /\ opens p 2%nat <> Opened) /\
  (exists p, find_rar (fun _ => [1; 2]%nat) (fun _ => true) opens true passwords = Ok p /\ opens p 2%nat <> Opened).
Proof.
  exists (fun p f => if Nat.eqb f 1 then Opened else ex_opens p f), [$"wrong"; $"right"], $"right".
  split; [right; now left|]. split; [intros f; now destruct (Nat.eqb f 1)|].
  split; [|split]; eexists; (split; [reflexivity|discriminate]).
Qed.
Print Assumptions C75_mixed_refuted.

(** An archive with an encrypted directory is mounted as an empty one if no password fits. *)
Theorem C75_wrong_password_refuted : exists (infolist : option str -> list nat) passwords, (exists p, infolist (Some p) <> []) /\
  forall is_file opens, exists p, find_zip infolist is_file opens passwords = Ok p /\ find_seven infolist is_file opens passwords = Ok p /\
    find_rar infolist is_file opens true passwords = Ok p /\ infolist p = [].
Proof.
  exists (fun p => match p with Some p => if str_eqb p $"right" then [1%nat] else [] | None => [] end), [$"wrong"].
  split; [exists $"right"; discriminate|]. intros. eexists. repeat split.
Qed.
Print Assumptions C75_wrong_password_refuted.

(** The empty password is never tried for ZIP. *)
Theorem C75_empty_password_refuted : exists (opens : option str -> nat -> outcome), opens (Some []) 1%nat = Opened /\
  find_zip (fun _ => [1%nat]) (fun _ => true) opens [[]] = Err RuntimeError.
Proof. exists (fun p _ => match p with Some [] => Opened | _ => Refused end). split; reflexivity. Qed.
Print Assumptions C75_empty_password_refuted.
