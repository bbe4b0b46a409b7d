(** C114: which blocks the prefetcher of the parallel readers (Lru_Model.v, pf_fetch and pf_prefetch) asks for. *)
From Verif Require Import PyBase Lru_Model.

(** The specification: the values of a history, newest first, each one at its last use. *)
Fixpoint by_last_use (newest_first : list nat) : list nat :=
  match newest_first with [] => [] | x :: r => x :: filter (fun y => negb (x =? y)) (by_last_use r) end.
(** How many of the values just used were used in ascending order without gaps: [run_of k] says that it is [k] and not more. *)
Definition run_of (recent : list nat) (k : nat) : Prop :=
  exists newest, (forall i, i <= k -> exists v, nth_error recent i = Some v /\ v + i = newest) /\
                 ~ exists v, nth_error recent (S k) = Some v /\ v + S k = newest.

(** The state after a history, oldest first. *)
Definition pf_run (memorySize : nat) (history : list nat) : list nat := fold_left (pf_fetch memorySize) history [].

Lemma by_last_use_in l x : In x (by_last_use l) <-> In x l.
Proof.
  induction l as [|a l IH]; [reflexivity|]. cbn. rewrite filter_In, IH. destruct (Nat.eqb_spec a x) as [->|N]; cbn; intuition congruence.
Qed.
Lemma by_last_use_nodup l : NoDup (by_last_use l).
Proof.
  induction l as [|a l IH]; cbn; constructor; [|now apply NoDup_filter]. rewrite filter_In. intros [_ H]. now rewrite Nat.eqb_refl in H.
Qed.
Lemma filter_absent x l : ~ In x l -> filter (fun y => negb (x =? y)) l = l.
Proof.
  induction l as [|a l IH]; [reflexivity|]. intros H. cbn. destruct (Nat.eqb_spec x a) as [->|N]; [destruct H; now left|]. cbn. f_equal. apply IH. intros I. apply H. now right.
Qed.
Lemma remove1_filter x l : NoDup l -> (if existsb (Nat.eqb x) l then remove1 Nat.eqb x l else l) = filter (fun y => negb (x =? y)) l.
Proof.
  induction l as [|a l IH]; intros N; [reflexivity|]. apply NoDup_cons_iff in N as [N1 N2]. specialize (IH N2). cbn. destruct (Nat.eqb_spec x a) as [->|D]; cbn [orb negb].
  - now rewrite filter_absent.
  - destruct (existsb (Nat.eqb x) l); now rewrite <- IH.
Qed.
Lemma filter_firstn x : forall l m, NoDup l -> firstn m (filter (fun y => negb (x =? y)) (firstn (S m) l)) = firstn m (filter (fun y => negb (x =? y)) l).
Proof.
  induction l as [|a l IH]; intros m N; [reflexivity|]. apply NoDup_cons_iff in N as [N1 N2]. cbn [firstn filter]. destruct (Nat.eqb_spec x a) as [->|D]; cbn [negb].
  - rewrite (filter_absent a l N1), filter_absent; [|intros I; apply N1; rewrite <- (firstn_skipn m l); apply in_or_app; now left]. rewrite firstn_firstn, Nat.min_id. reflexivity.
  - destruct m as [|m]; [reflexivity|]. cbn [firstn]. f_equal. now apply IH.
Qed.
Lemma filter_rev' x (l : list nat) : filter (fun y => negb (x =? y)) (rev l) = rev (filter (fun y => negb (x =? y)) l).
Proof. induction l as [|a l IH]; [reflexivity|]. cbn [rev filter]. rewrite filter_app, IH. cbn. destruct (x =? a); cbn; [apply app_nil_r|reflexivity]. Qed.
Lemma skipn_rev' (l : list nat) m : rev (skipn (length l - m) l) = firstn m (rev l).
Proof. now rewrite firstn_rev. Qed.

Lemma nodup_firstn (l : list nat) : forall m, NoDup l -> NoDup (firstn m l).
Proof.
  induction l as [|a l IH]; intros [|m] N; cbn; try constructor; apply NoDup_cons_iff in N as [N1 N2]; [|now apply IH].
  intros I. apply N1. rewrite <- (firstn_skipn m l). apply in_or_app. now left.
Qed.

(** After every history, the memory is what was used last, at most [memorySize] values, each one once. *)
Theorem C114_memory memorySize history : 0 < memorySize -> rev (pf_run memorySize history) = firstn memorySize (by_last_use (rev history)).
Proof.
  intros M. destruct memorySize as [|m]; [lia|]. unfold pf_run. rewrite <- (rev_involutive history) at 1.
  induction (rev history) as [|x h IH]; [reflexivity|]. cbn [rev]. rewrite fold_left_app. cbn [fold_left]. set (st := fold_left (pf_fetch (S m)) (rev h) []) in *.
  assert (NoDup st) as N.
  { rewrite <- (rev_involutive st), IH. apply NoDup_rev. pose proof (by_last_use_nodup h) as Q. now apply nodup_firstn. }
  unfold pf_fetch. rewrite remove1_filter by exact N. rewrite skipn_rev'. rewrite rev_app_distr. cbn [rev app by_last_use firstn]. f_equal.
  rewrite <- filter_rev', IH. apply filter_firstn, by_last_use_nodup.
Qed.

Lemma seq_map a n : seq a n = map (fun i => a + i) (seq 0 n).
Proof.
  assert (forall b, seq (a + b) n = map (fun i => a + i) (seq b n)) as H.
  { induction n as [|n IH]; intros b; [reflexivity|]. cbn. f_equal. rewrite plus_n_Sm. apply IH. }
  rewrite <- H. now rewrite Nat.add_0_r.
Qed.

Lemma consecutive_run newest older :
  let fix consecutive (newer : nat) (l : list nat) : nat := match l with [] => 0 | j :: r => if Nat.eqb newer (j + 1) then S (consecutive j r) else 0 end in
  run_of (newest :: older) (consecutive newest older).
Proof.
  cbv zeta. revert newest. induction older as [|j older IH]; intros newest.
  - exists newest. split; [|intros (v & H & _); discriminate H]. intros [|i] L; [|lia]. exists newest. split; [reflexivity|lia].
  - destruct (Nat.eqb_spec newest (j + 1)) as [->|N].
    + destruct (IH j) as (n & H1 & H2). exists (j + 1). destruct (H1 0 ltac:(lia)) as (v & V & Q). cbn in V. injection V as <-. assert (n = j) as -> by lia. split.
      * intros [|i] L; [exists (j + 1); split; [reflexivity|lia]|]. destruct (H1 i ltac:(lia)) as (v & V & Q'). exists v. split; [exact V|lia].
      * intros (v & V & Q'). apply H2. exists v. split; [exact V|lia].
    + exists newest. split; [|intros (v & H & Q); cbn in H; injection H as <-; lia]. intros [|i] L; [|lia]. exists newest. split; [reflexivity|lia].
Qed.

(** After every history, the next values behind the last used one are asked for, as many as the formula gives for the length of the
    ascending run that was just used; nothing is asked for at the start or if nothing may be. *)
Theorem C114_prefetch count memorySize maximum history : 0 < memorySize ->
  (history = [] \/ maximum = 0 -> pf_prefetch count memorySize maximum (pf_run memorySize history) = []) /\
  (forall older last, history = older ++ [last] -> 0 < maximum ->
   exists k, run_of (firstn memorySize (by_last_use (rev history))) k /\ k < memorySize /\
   pf_prefetch count memorySize maximum (pf_run memorySize history) = map (fun i => last + 1 + i) (seq 0 (count maximum k))).
Proof.
  intros M. split.
  - intros [-> | ->]; [reflexivity|]. unfold pf_prefetch. now destruct (rev (pf_run memorySize history)).
  - intros older last E P. unfold pf_prefetch. rewrite (C114_memory memorySize history M). rewrite E, rev_app_distr. cbn [rev app by_last_use]. destruct memorySize as [|m]; [lia|]. cbn [firstn].
    destruct (Nat.leb_spec maximum 0) as [|_]; [lia|]. set (rest := firstn m _). pose proof (consecutive_run last rest) as R. cbv zeta in R. cbv zeta.
    eexists. split; [exact R|]. split.
    + destruct R as (n & R & _). specialize (R _ (le_n _)). destruct R as (v & V & _). assert (nth_error (last :: rest) ((fix consecutive (newer : nat) (l : list nat) : nat := match l with [] => 0 | j :: r => if newer =? j + 1 then S (consecutive j r) else 0 end) last rest) <> None) as V' by congruence. apply nth_error_Some in V'.
      cbn [length] in *. subst rest. rewrite firstn_length in *. lia.
    + apply seq_map.
Qed.

Lemma by_last_use_seq a n : by_last_use (rev (seq a n)) = rev (seq a n).
Proof.
  induction n as [|n IH]; [reflexivity|]. rewrite seq_S, rev_app_distr. cbn [rev app by_last_use]. rewrite IH. f_equal. apply filter_absent. rewrite <- in_rev, in_seq. lia.
Qed.
Lemma nth_rev_seq a n i : i < n -> nth_error (rev (seq a n)) i = Some (a + n - 1 - i).
Proof.
  intros L. rewrite (nth_error_nth' _ 0) by (rewrite rev_length, seq_length; exact L). f_equal. rewrite rev_nth by (rewrite seq_length; exact L). rewrite seq_length, seq_nth by lia. lia.
Qed.

(** The formula, exact at its ends: exp(ln(maximum) * k / (memorySize - 1)) rounded. *)
Definition exact_at_ends (count : nat -> nat -> nat) (memorySize : nat) : Prop := forall maximum, 0 < maximum -> count maximum 0 = 1 /\ count maximum (memorySize - 1) = maximum.

(** Reading in order for [memorySize] blocks makes all that may be asked for be asked for; jumping makes just the next one be. *)
Theorem C114_ends count memorySize maximum : 0 < memorySize -> 0 < maximum -> exact_at_ends count memorySize ->
  (forall before first, (forall x, In x before -> x < first \/ first + memorySize <= x) ->
   pf_prefetch count memorySize maximum (pf_run memorySize (before ++ seq first memorySize)) = seq (first + memorySize) maximum) /\
  (forall before x y, x <> y -> x + 1 <> y -> pf_prefetch count memorySize maximum (pf_run memorySize (before ++ [x; y])) = [y + 1]) /\
  (forall x, pf_prefetch count memorySize maximum (pf_run memorySize [x]) = [x + 1]).
Proof.
  intros M P Ends. destruct (Ends maximum P) as [E0 E1].
  assert (forall l m k k', run_of l k -> run_of l k' -> k <= m -> k = k') as U.
  { intros l m k k' (n & H1 & H2) (n' & H1' & H2') _. destruct (H1 0 ltac:(lia)) as (v & V & Q), (H1' 0 ltac:(lia)) as (v' & V' & Q'). assert (n = n') as <- by congruence.
    destruct (lt_eq_lt_dec k k') as [[L|L]|L]; [exfalso; apply H2, H1'; lia|exact L|exfalso; apply H2', H1; lia]. }
  assert (forall last c, map (fun i => last + 1 + i) (seq 0 c) = seq (last + 1) c) as Sq.
  { intros last c. symmetry. apply seq_map. }
  split; [|split].
  - intros before first A. destruct memorySize as [|m]; [lia|].
    assert (firstn (S m) (by_last_use (rev (before ++ seq first (S m)))) = rev (seq first (S m))) as F.
    { rewrite rev_app_distr. assert (forall l b, NoDup l -> (forall x, In x l -> ~ In x b) -> by_last_use (l ++ b) = l ++ by_last_use b) as Q.
      { induction l as [|a l IH]; intros b N D; [reflexivity|]. apply NoDup_cons_iff in N as [N1 N2]. cbn [app by_last_use]. rewrite IH; [|exact N2|intros x I; apply D; now right]. f_equal. apply filter_absent.
        rewrite in_app_iff, by_last_use_in. intros [I|I]; [contradiction|]. apply (D a); [now left|exact I]. }
      rewrite Q; [|apply NoDup_rev, seq_NoDup|].
      - rewrite firstn_app, rev_length, seq_length, Nat.sub_diag, firstn_O, app_nil_r. rewrite firstn_all2 by (rewrite rev_length, seq_length; lia). reflexivity.
      - intros x I J. rewrite <- in_rev in I, J. apply in_seq in I. apply A in J. lia. }
    destruct (C114_prefetch count (S m) maximum (before ++ seq first (S m)) M) as [_ K]. destruct (K (before ++ seq first m) (first + m)) as (k & R & _ & ->); [rewrite seq_S, app_assoc; reflexivity|exact P|].
    rewrite F in R. assert (run_of (rev (seq first (S m))) m) as R'.
    { exists (first + m). split; [intros i L; exists (first + m - i); rewrite nth_rev_seq by lia; split; [f_equal; lia|lia]|].
      intros (v & V & _). assert (nth_error (rev (seq first (S m))) (S m) <> None) as W by congruence. apply nth_error_Some in W. rewrite rev_length, seq_length in W. lia. }
    rewrite (U _ k k m R R' (le_n _)). replace (S m - 1) with m in E1 by lia. rewrite E1, Sq. f_equal. lia.
  - intros before x y N1 N2. destruct (C114_prefetch count memorySize maximum (before ++ [x; y]) M) as [_ K]. destruct (K (before ++ [x]) y) as (k & R & _ & ->); [rewrite <- app_assoc; reflexivity|exact P|].
    rewrite rev_app_distr in R. cbn [rev app by_last_use] in R. cbn [filter] in R. destruct (Nat.eqb_spec y x) as [Q|_]; [congruence|]. cbn [negb] in R.
    assert (k = 0) as ->.
    { destruct R as (n & H1 & H2). destruct k as [|k]; [reflexivity|exfalso]. destruct (H1 0 ltac:(lia)) as (v & V & Q), (H1 1 ltac:(lia)) as (w & W & Q').
      destruct memorySize as [|[|m]]; [lia|discriminate W|]. cbn in V, W. injection V as <-. injection W as <-. lia. }
    rewrite E0. cbn. now rewrite Nat.add_0_r.
  - intros x. destruct (C114_prefetch count memorySize maximum [x] M) as [_ K]. destruct (K [] x eq_refl P) as (k & R & _ & ->).
    assert (k = 0) as ->.
    { destruct R as (n & H1 & H2). destruct k as [|k]; [reflexivity|exfalso]. destruct (H1 1 ltac:(lia)) as (w & W & Q'). destruct memorySize as [|[|m]]; discriminate W. }
    rewrite E0. cbn. now rewrite Nat.add_0_r.
Qed.

(** The hypotheses can be met: with a formula that is 1 at 0, 8 at 3 and in between 2 and 4. *)
Example C114_case : let count maximum k := match k with 0 => 1 | 1 => 2 | 2 => 4 | _ => maximum end in
  exact_at_ends count 4 /\ pf_run 4 [7; 3; 9; 3; 4; 5; 6; 4] = [3; 5; 6; 4] /\ pf_run 4 [7; 9; 3; 4; 5] = [9; 3; 4; 5] /\
  pf_prefetch count 4 8 [9; 3; 4; 5] = [6; 7; 8; 9] /\ run_of [5; 4; 3; 9] 2.
Proof.
  cbv zeta. split; [intros m P; split; reflexivity|]. split; [reflexivity|]. split; [reflexivity|]. split; [reflexivity|]. exists 5. split.
  - intros [|[|[|i]]] L; [exists 5|exists 4|exists 3|lia]; split; reflexivity || lia.
  - intros (v & V & Q). cbn in V. injection V as <-. lia.
Qed.

Print Assumptions C114_memory.
Print Assumptions C114_prefetch.
Print Assumptions C114_ends.
