From Coq Require Import Ascii String.
From Verif Require Import PyBase PyStr Strip_Model Strip_Spec.

(** ** Globs *)
Lemma lower_cases c : lower c = c \/ exists n, n < 26 /\ c = ascii_of_nat (65 + n) /\ lower c = ascii_of_nat (97 + n).
Proof.
  unfold lower. destruct (Nat.leb_spec 65 (nat_of_ascii c)) as [L|L]; [|now left]. destruct (Nat.leb_spec (nat_of_ascii c) 90) as [U|U]; [|now left].
  right. exists (nat_of_ascii c - 65). split; [lia|]. split.
  - replace (65 + (nat_of_ascii c - 65)) with (nat_of_ascii c) by lia. symmetry. apply ascii_nat_embedding.
  - cbn [andb]. f_equal. lia.
Qed.

Lemma lower_upper n : n < 26 -> lower (ascii_of_nat (65 + n)) = ascii_of_nat (97 + n) /\ lower (ascii_of_nat (97 + n)) = ascii_of_nat (97 + n).
Proof.
  intros L. unfold lower. rewrite !nat_ascii_embedding by lia. split.
  - rewrite (proj2 (Nat.leb_le 65 (65 + n))) by lia. rewrite (proj2 (Nat.leb_le (65 + n) 90)) by lia. cbn [andb]. f_equal. lia.
  - rewrite (proj2 (Nat.leb_gt (97 + n) 90)) by lia. now rewrite andb_false_r.
Qed.

Lemma same_letter_spec a b : same_letter a b = true <-> same_but_case a b.
Proof.
  unfold same_letter, same_but_case, char_eqb. rewrite Ascii.eqb_eq. split.
  - intros E. destruct (lower_cases a) as [Ea|(n & Ln & Ea & La)]; destruct (lower_cases b) as [Eb|(m & Lm & Eb & Lb)].
    + left. congruence.
    + right. exists m. split; [exact Lm|]. right. split; [exact Eb|]. congruence.
    + right. exists n. split; [exact Ln|]. left. split; [exact Ea|]. congruence.
    + left. rewrite La, Lb in E. apply (f_equal nat_of_ascii) in E. rewrite !nat_ascii_embedding in E by lia. rewrite Ea, Eb. f_equal. lia.
  - intros [->|(n & L & [[-> ->]|[-> ->]])]; [reflexivity| |]; destruct (lower_upper n L) as [-> ->]; reflexivity.
Qed.

Lemma letters_In cs c : existsb (fun x => same_letter x c) cs = true <-> exists x, In x cs /\ same_but_case x c.
Proof. rewrite existsb_exists. split; intros (x & I & H); exists x; (split; [exact I|now apply same_letter_spec]). Qed.

Lemma glob_match_sound p : forall s, glob_match p s = true -> glob p s.
Proof.
  induction p as [|t p IH]; intros s H.
  - destruct s; [constructor|discriminate].
  - destruct t as [x| | |neg cs].
    + destruct s as [|c s]; [discriminate|]. cbn in H. apply andb_true_iff in H as [H1 H2]. constructor; [now apply same_letter_spec|auto].
    + destruct s as [|c s]; [discriminate|]. cbn in H. constructor; auto.
    + induction s as [|c s IHs].
      * cbn in H. rewrite orb_false_r in H. apply (glob_star []). now apply IH.
      * cbn in H. apply orb_true_iff in H as [H|H]; [apply (glob_star []); now apply IH|].
        specialize (IHs H). inversion IHs; subst. now apply (glob_star (c :: a)).
    + destruct s as [|c s]; [discriminate|]. cbn in H. apply andb_true_iff in H as [H1 H2]. destruct (existsb (fun x => same_letter x c) cs) eqn:X; destruct neg; cbn in H1; try discriminate.
      * apply glob_one; [|now apply IH]. now apply letters_In.
      * apply glob_none; [|now apply IH]. rewrite <- letters_In. congruence.
Qed.

Lemma glob_match_complete p s : glob p s -> glob_match p s = true.
Proof.
  induction 1 as [|x c p s E _ IH|c p s _ IH|a p s _ IH|c cs p s E _ IH|c cs p s E _ IH].
  - reflexivity.
  - cbn. apply same_letter_spec in E. now rewrite E, IH.
  - cbn. exact IH.
  - induction a as [|c a IHa]; cbn [app].
    + cbn. destruct s; rewrite IH; reflexivity.
    + cbn in IHa |- *. rewrite IHa. apply orb_true_r.
  - cbn. apply letters_In in E. now rewrite E, IH.
  - cbn. destruct (existsb (fun x => same_letter x c) cs) eqn:X; [apply letters_In in X; contradiction|]. exact IH.
Qed.

Lemma globs_spec ps s : existsb (fun p => glob_match p s) ps = true <-> is_suffix (Globs ps) s.
Proof.
  rewrite existsb_exists. cbn. split; intros (p & H & X); exists p; (split; [exact H|]).
  - now apply glob_match_sound.
  - now apply glob_match_complete.
Qed.

Lemma leftmost_spec ps s : forall i,
  match leftmost ps s i with
  | Some k => exists d, k = i + d /\ d <= length s /\ is_suffix (Globs ps) (skipn d s) /\
                        forall j, j < d -> ~ is_suffix (Globs ps) (skipn j s)
  | None => forall d, d <= length s -> ~ is_suffix (Globs ps) (skipn d s)
  end.
Proof.
  induction s as [|c s IH]; intros i.
  - cbn [leftmost]. destruct (existsb (fun p => glob_match p []) ps) eqn:E.
    + exists 0. apply globs_spec in E. split; [lia|]. split; [cbn; lia|]. split; [exact E|]. intros j Hj. lia.
    + intros d Hd H. cbn in Hd. assert (d = 0) by lia. subst d. apply globs_spec in H. cbn [skipn] in H. congruence.
  - cbn [leftmost]. destruct (existsb (fun p => glob_match p (c :: s)) ps) eqn:E.
    + exists 0. apply globs_spec in E. split; [lia|]. split; [cbn; lia|]. split; [exact E|]. intros j Hj. lia.
    + assert (~ is_suffix (Globs ps) (c :: s)) as N by (intros H; apply globs_spec in H; congruence).
      specialize (IH (i + 1)). destruct (leftmost ps s (i + 1)) as [k|].
      * destruct IH as (d & -> & Ld & H & F). exists (S d). split; [lia|]. split; [cbn; lia|]. split; [exact H|].
        intros [|j] Hj; [exact N|]. apply F. lia.
      * intros [|d] Hd; [exact N|]. cbn in Hd. cbn [skipn]. apply IH. lia.
Qed.

(** ** The suffix of the first part *)
Notation first_part := (is_suffix SplitExt).

Lemma run_of_spec c s : exists t, s = repeat c (run_of c s) ++ t /\ (forall x r, t = x :: r -> x <> c).
Proof.
  induction s as [|x s IH]; cbn [run_of]; [exists []; split; [reflexivity|discriminate]|].
  destruct (char_eqb_spec x c) as [->|N].
  - destruct IH as (t & E & H). exists t. cbn [repeat app]. split; [congruence|exact H].
  - exists (x :: s). split; [reflexivity|]. congruence.
Qed.
Lemma run_of_repeat c n : forall t, (forall x r, t = x :: r -> x <> c) -> run_of c (repeat c n ++ t) = n.
Proof.
  induction n as [|n IH]; intros t H; cbn [repeat app run_of].
  - destruct t as [|x r]; [reflexivity|]. cbn [run_of]. destruct (char_eqb_spec x c) as [E|E]; [exfalso; exact (H x r eq_refl E)|reflexivity].
  - destruct (char_eqb_spec c c); [|congruence]. now rewrite IH.
Qed.

Lemma repeat_snoc {X} (x : X) n : repeat x n ++ [x] = repeat x (S n).
Proof. induction n; [reflexivity|]. cbn in *. now rewrite IHn. Qed.

Lemma nth_repeat_app {X} (c : X) n t : nth_error (repeat c n ++ t) n = nth_error t 0.
Proof. rewrite nth_error_app2; rewrite repeat_length; [|lia]. now rewrite Nat.sub_diag. Qed.

Lemma firstn_repeat_app {X} (c : X) n t : firstn n (repeat c n ++ t) = repeat c n.
Proof. rewrite firstn_app, repeat_length, Nat.sub_diag. cbn. rewrite app_nil_r. rewrite <- (repeat_length c n) at 1. apply firstn_all. Qed.

(** A match of the expression is a first part, and takes no further dot. *)
Lemma split_at_Some s n : split_at s = Some n -> 2 <= n <= length s /\ first_part (firstn n s) /\
  forall k, 0 < k < n -> nth_error s k <> Some "."%char.
Proof.
  destruct s as [|c r]; [discriminate|]. unfold split_at. destruct (char_eqb_spec c dotc) as [->|]; [|discriminate].
  assert (forall (x : ascii) m, firstn m r = repeat x m -> x <> "."%char -> m <= length r ->
            forall k, 0 < k < 1 + m -> nth_error (dotc :: r) k <> Some "."%char) as NoDot.
  { intros x m F Nx Lm [|k] Hk E; [lia|]. cbn [nth_error] in E. assert (In "."%char (firstn m r)) as I.
    { rewrite <- (firstn_skipn m r) in E. rewrite nth_error_app1 in E; [now apply nth_error_In in E|]. rewrite firstn_length. lia. }
    rewrite F in I. apply repeat_spec in I. congruence. }
  destruct (Nat.ltb_spec 0 (run_of "a" r)) as [La|La].
  { intros [= <-]. destruct (run_of_spec "a" r) as (t & E & Ht). set (m := run_of "a" r) in *.
    assert (firstn m r = repeat "a"%char m) as Fm by (rewrite E; apply firstn_repeat_app).
    assert (m <= length r) as Lm by (rewrite E, app_length, repeat_length; lia).
    split; [cbn; lia|]. split; [|now apply (NoDot "a"%char)].
    cbn [firstn Nat.add]. rewrite Fm. exists (m - 1). left. replace (S (m - 1)) with m by lia. reflexivity. }
  destruct (Nat.ltb_spec 0 (run_of "A" r)) as [LA|LA].
  { intros [= <-]. destruct (run_of_spec "A" r) as (t & E & Ht). set (m := run_of "A" r) in *.
    assert (firstn m r = repeat "A"%char m) as Fm by (rewrite E; apply firstn_repeat_app).
    assert (m <= length r) as Lm by (rewrite E, app_length, repeat_length; lia).
    split; [cbn; lia|]. split; [|now apply (NoDot "A"%char)].
    cbn [firstn Nat.add]. rewrite Fm. exists (m - 1). right. left. replace (S (m - 1)) with m by lia. reflexivity. }
  destruct (run_of_spec "0" r) as (t & E & Ht). set (m := run_of "0" r) in *. cbv zeta.
  assert (firstn m r = repeat "0"%char m) as Fm by (rewrite E; apply firstn_repeat_app).
  assert (m <= length r) as Lm by (rewrite E, app_length, repeat_length; lia).
  assert (forall k, (if 0 <? m then Some (1 + m) else None) = Some k -> 2 <= k <= length (dotc :: r) /\ first_part (firstn k (dotc :: r)) /\
            forall j, 0 < j < k -> nth_error (dotc :: r) j <> Some "."%char) as Zeros.
  { intros k H. destruct (Nat.ltb_spec 0 m) as [L0|]; [|discriminate]. injection H as <-. split; [cbn; lia|]. split; [|now apply (NoDot "0"%char)].
    cbn [firstn Nat.add]. rewrite Fm. exists (m - 1). right. right. left. rewrite repeat_snoc. replace (S (m - 1)) with m by lia. reflexivity. }
  destruct (nth_error r m) as [d|] eqn:Ed; [|apply Zeros]. destruct (char_eqb_spec d "1") as [->|]; [|apply Zeros].
  intros [= <-]. assert (m < length r) by (apply nth_error_Some; congruence). split; [cbn; lia|].
  assert (firstn (m + 1) r = repeat "0"%char m ++ ["1"%char]) as F1.
  { rewrite E, nth_repeat_app in Ed. destruct t as [|x t]; [discriminate|]. injection Ed as ->. rewrite E.
    rewrite firstn_app, repeat_length. replace (m + 1 - m) with 1 by lia. cbn [firstn].
    rewrite firstn_all2 by (rewrite repeat_length; lia). reflexivity. }
  split.
  - replace (S (m + 1)) with (1 + (m + 1)) by lia. cbn [firstn Nat.add]. rewrite F1. exists m. right. right. right. reflexivity.
  - intros [|k] Hk En; [lia|]. cbn [nth_error] in En.
    assert (In "."%char (firstn (m + 1) r)) as I.
    { rewrite <- (firstn_skipn (m + 1) r) in En. rewrite nth_error_app1 in En; [now apply nth_error_In in En|]. rewrite firstn_length. lia. }
    rewrite F1 in I. apply in_app_iff in I as [I|[I|[]]]; [apply repeat_spec in I|]; discriminate.
Qed.

(** A first part is matched as a whole. *)
Lemma split_at_whole s : first_part s -> split_at s = Some (length s).
Proof.
  intros (n & H). assert (forall c x t, x <> c -> run_of c (x :: t) = 0) as R0.
  { intros c x t Hx. cbn. now destruct (char_eqb_spec x c). }
  destruct H as [->|[->|[->| ->]]]; unfold split_at; change (char_eqb "." dotc) with true; cbn iota.
  - rewrite <- (app_nil_r (repeat _ _)). rewrite run_of_repeat by discriminate. cbn [Nat.ltb Nat.leb length]. rewrite app_nil_r, repeat_length. reflexivity.
  - rewrite <- (app_nil_r (repeat _ _)). cbn [repeat app]. rewrite R0 by discriminate.
    change ("A"%char :: repeat "A"%char n ++ []) with (repeat "A"%char (S n) ++ []). rewrite run_of_repeat by discriminate.
    cbn [Nat.ltb Nat.leb length]. rewrite app_nil_r, repeat_length. reflexivity.
  - rewrite repeat_snoc. rewrite <- (app_nil_r (repeat _ _)). rewrite run_of_repeat by discriminate.
    rewrite nth_repeat_app. cbn [repeat app]. rewrite !R0 by discriminate. cbn [Nat.ltb Nat.leb nth_error length]. rewrite app_nil_r, repeat_length. reflexivity.
  - rewrite (run_of_repeat "0" n ["1"%char]) by (intros x r [= <- <-]; discriminate). rewrite nth_repeat_app. cbn [nth_error].
    assert (run_of "a" (repeat "0"%char n ++ ["1"%char]) = 0 /\ run_of "A" (repeat "0"%char n ++ ["1"%char]) = 0) as [-> ->] by (destruct n; split; reflexivity).
    cbn [Nat.ltb Nat.leb]. change (char_eqb "1" "1") with true. cbn iota. cbn [length]. rewrite app_length, repeat_length. cbn. f_equal; lia.
Qed.

Lemma first_part_dot s : first_part s -> exists r, s = "."%char :: r.
Proof. intros (n & [->|[->|[->| ->]]]); eexists; reflexivity. Qed.

Lemma skipn_head {X} k : forall (s : list X) x r, skipn k s = x :: r -> nth_error s k = Some x.
Proof. induction k as [|k IH]; intros [|y s] x r H; cbn in *; try congruence. eauto. Qed.

Lemma skipn_twice {X} x y : forall s : list X, skipn x (skipn y s) = skipn (x + y) s.
Proof. induction y as [|y IH]; intros s; [now rewrite Nat.add_0_r|]. destruct s as [|c s]; [now rewrite !skipn_nil|]. rewrite Nat.add_succ_r. apply IH. Qed.

Lemma first_part_one_dot s k : first_part s -> 0 < k -> ~ first_part (skipn k s).
Proof.
  intros H Hk H2. apply split_at_whole in H as E. apply split_at_Some in E as (_ & _ & N).
  apply first_part_dot in H2 as (r & E2).
  assert (k < length s) as L. { destruct (Nat.lt_ge_cases k (length s)); [assumption|]. rewrite skipn_all2 in E2 by lia. discriminate. }
  apply (N k); [lia|]. exact (skipn_head k s _ r E2).
Qed.

Lemma finditer_found fuel : forall s i last k, length s < fuel -> k <= length s -> first_part (skipn k s) ->
  finditer fuel s i last = Some (i + k, i + length s).
Proof.
  induction fuel as [|f IH]; intros s i last k L Lk H; [lia|]. cbn [finditer].
  destruct (split_at s) as [n|] eqn:E.
  - pose proof (split_at_Some s n E) as (Ln & Fn & Nd).
    destruct (Nat.eq_dec k 0) as [->|Nk].
    + cbn [skipn] in H. rewrite (split_at_whole s H) in E. injection E as <-. rewrite skipn_all.
      destruct f; [lia|]. cbn. now rewrite Nat.add_0_r.
    + assert (n <= k) as Lnk.
      { destruct (Nat.le_gt_cases n k) as [?|Gt]; [assumption|]. exfalso. apply first_part_dot in H as (r & E2).
        apply (Nd k); [lia|]. exact (skipn_head k s _ r E2). }
      rewrite (IH (skipn n s) (i + n) _ (k - n)).
      * f_equal. rewrite skipn_length. f_equal; lia.
      * rewrite skipn_length. lia.
      * rewrite skipn_length. lia.
      * rewrite skipn_twice. now replace (k - n + n) with k by lia.
  - destruct k as [|k]; [cbn [skipn] in H; rewrite (split_at_whole s H) in E; discriminate|].
    destruct s as [|c s]; [cbn in Lk; lia|]. cbn [length] in *. cbn [skipn] in H.
    rewrite (IH s (i + 1) last k); [|lia|lia|exact H]. f_equal. f_equal; lia.
Qed.

Lemma finditer_none fuel : forall s i last, length s < fuel -> (forall k, k <= length s -> ~ first_part (skipn k s)) ->
  finditer fuel s i last = last \/ exists a b, finditer fuel s i last = Some (a, b) /\ b < i + length s.
Proof.
  induction fuel as [|f IH]; intros s i last L N; [lia|]. cbn [finditer].
  destruct (split_at s) as [n|] eqn:E.
  - pose proof (split_at_Some s n E) as (Ln & Fn & _).
    assert (n < length s) as Lt.
    { destruct (Nat.eq_dec n (length s)) as [->|]; [|lia]. exfalso. apply (N 0); [lia|]. now rewrite firstn_all in Fn. }
    right. destruct (IH (skipn n s) (i + n) (Some (i, i + n))) as [X|(a & b & X & Lb)].
    + rewrite skipn_length. lia.
    + intros k Lk. rewrite skipn_twice. rewrite skipn_length in Lk. apply N. lia.
    + exists i, (i + n). split; [exact X|lia].
    + exists a, b. split; [exact X|]. rewrite skipn_length in Lb. lia.
  - destruct s as [|c s]; [now left|]. cbn [length] in *. destruct (IH s (i + 1) last) as [X|(a & b & X & Lb)].
    + lia.
    + intros k Lk. apply (N (S k)). lia.
    + now left.
    + right. exists a, b. split; [exact X|lia].
Qed.

(** ** Rules *)
Definition end_match (r : rule) (name : str) : option nat :=
  match last_match (r_regex r) name with Some (s, e) => if e =? length name then Some s else None | None => None end.

Lemma end_match_spec r name :
  match end_match r name with Some k => first_match r name k | None => forall k, ~ matches r name k end.
Proof.
  unfold end_match, last_match, first_match, matches. destruct (r_regex r) as [ps|].
  - pose proof (leftmost_spec ps name 0) as L. destruct (leftmost ps name 0) as [k|]; cbn [option_map].
    + rewrite Nat.eqb_refl. destruct L as (d & -> & Ld & H & F). cbn [Nat.add]. split; [auto|].
      intros j [Lj Hj]. destruct (Nat.le_gt_cases d j); [assumption|]. exfalso. now apply (F j).
    + intros k [Lk H]. exact (L k Lk H).
  - assert ((exists k, k <= length name /\ first_part (skipn k name)) \/ (forall k, k <= length name -> ~ first_part (skipn k name))) as Dec.
    { assert (forall s, first_part s \/ ~ first_part s) as D.
      { intros s. destruct (split_at s) as [n|] eqn:E.
        - destruct (Nat.eq_dec n (length s)) as [->|N].
          + left. apply split_at_Some in E as (_ & F & _). now rewrite firstn_all in F.
          + right. intros H. rewrite (split_at_whole s H) in E. congruence.
        - right. intros H. rewrite (split_at_whole s H) in E. discriminate. }
      generalize (length name) as m. induction m as [|m IH].
      - destruct (D (skipn 0 name)) as [H|H]; [left; exists 0; auto|right; intros k Lk]. assert (k = 0) by lia. now subst.
      - destruct IH as [(k & Lk & H)|H]; [left; exists k; split; [lia|exact H]|].
        destruct (D (skipn (S m) name)) as [H2|H2]; [left; exists (S m); auto|right].
        intros k Lk. destruct (Nat.eq_dec k (S m)) as [->|]; [exact H2|apply H; lia]. }
    destruct Dec as [(k & Lk & H)|N].
    + rewrite (finditer_found _ name 0 None k) by (lia || assumption). cbn [Nat.add]. rewrite Nat.eqb_refl. split; [auto|].
      intros j [Lj Hj]. destruct (Nat.lt_trichotomy k j) as [?|[?|Gt]]; [lia|lia|]. exfalso.
      apply (first_part_one_dot (skipn j name) (k - j)); [exact Hj|lia|]. rewrite skipn_twice. now replace (k - j + j) with k by lia.
    + destruct (finditer_none (length name + 1) name 0 None) as [X|(a & b & X & Lb)]; [lia|exact N| |]; rewrite X.
      * intros k [Lk Hk]. exact (N k Lk Hk).
      * cbn [Nat.add] in Lb. rewrite (proj2 (Nat.eqb_neq b (length name))) by lia. intros k [Lk Hk]. exact (N k Lk Hk).
Qed.

Lemma first_match_unique r name a b : first_match r name a -> first_match r name b -> a = b.
Proof. intros [Ma Fa] [Mb Fb]. apply Fa in Mb. apply Fb in Ma. lia. Qed.

Lemma matches_end r name k : matches r name k -> exists j, end_match r name = Some j /\ first_match r name j.
Proof.
  intros M. pose proof (end_match_spec r name) as E. destruct (end_match r name) as [j|]; [eauto|]. exfalso. exact (E k M).
Qed.

Lemma strip_step_end original name r : strip_step original name r =
  match end_match r original with
  | Some s => if r_include r
              then let new := firstn s original in
                   if str_eqb name original || (str_eqb name [] && negb (str_eqb new original)) || (negb (str_eqb new []) && (length new <? length name))
                   then new else name
              else original
  | None => name
  end.
Proof. unfold strip_step, end_match. destruct (last_match (r_regex r) original) as [[s e]|]; [|reflexivity]. now destruct (e =? length original). Qed.

(** The invariant of the loop for rules without a matching exclusion. *)
Definition so_far (act : list rule) (name result : str) : Prop :=
  let at_ k := exists r, In r act /\ r_include r = true /\ first_match r name k in
  (exists k, at_ k /\ 0 < k < length name /\ result = firstn k name /\ forall j, at_ j -> 0 < j -> k <= j) \/
  ((forall k, at_ k -> ~ 0 < k < length name) /\ at_ 0 /\ result = []) \/
  ((forall k, at_ k -> k = length name) /\ result = name).

Lemma firstn_eq_name (name : str) k : firstn k name = name <-> length name <= k.
Proof.
  split; [|apply firstn_all2]. intros E. apply (f_equal (@length _)) in E. rewrite firstn_length in E. lia.
Qed.

Lemma firstn_nil_iff (name : str) k : firstn k name = [] <-> k = 0 \/ name = [].
Proof.
  destruct k as [|k]; [cbn; tauto|]. destruct name; cbn; [tauto|]. split; [discriminate|]. intros [?|?]; discriminate.
Qed.

Lemma so_far_step act name result r : so_far act name result -> (r_include r = false -> forall k, ~ matches r name k) ->
  so_far (act ++ [r]) name (strip_step name result r).
Proof.
  intros S Ex. rewrite strip_step_end. pose proof (end_match_spec r name) as E.
  assert (forall k, (exists x, In x (act ++ [r]) /\ r_include x = true /\ first_match x name k) <->
            (exists x, In x act /\ r_include x = true /\ first_match x name k) \/ (r_include r = true /\ first_match r name k)) as At.
  { intros k. split.
    - intros (x & I & X). apply in_app_iff in I as [I|[<-|[]]]; [left; eauto|right; exact X].
    - intros [(x & I & X)|X]; [exists x; split; [apply in_or_app; now left|exact X]|exists r; split; [apply in_or_app; right; now left|exact X]]. }
  destruct (end_match r name) as [s|] eqn:Em.
  - destruct (r_include r) eqn:Ri.
    2:{ exfalso. exact (Ex eq_refl s (proj1 E)). }
    assert (s <= length name) as Ls by (destruct E as [[? _] _]; assumption).
    unfold so_far. cbv zeta. destruct S as [(k & Ak & Lk & -> & Mn)|[(Nk & A0 & ->)|(Nk & ->)]].
    + (* a proper prefix so far *)
      assert (str_eqb (firstn k name) name = false) as ->.
      { apply str_eqb_neq. rewrite firstn_eq_name. lia. }
      assert (str_eqb (firstn k name) [] = false) as ->.
      { apply str_eqb_neq. rewrite firstn_nil_iff. intros [?|?]; [lia|subst; cbn in Lk; lia]. }
      cbn [orb andb]. left. rewrite !firstn_length, !Nat.min_l by lia.
      destruct (str_eqb_spec (firstn s name) []) as [E0|N0]; cbn [negb andb].
      * apply firstn_nil_iff in E0. exists k. split; [apply At; now left|]. split; [exact Lk|]. split; [reflexivity|].
        intros j Aj Pj. apply At in Aj as [Aj|[_ Fj]]; [now apply Mn|]. rewrite (first_match_unique _ _ _ _ Fj E).
        destruct E0 as [->| ->]; [|cbn in Lk; lia]. pose proof (first_match_unique _ _ _ _ Fj E). lia.
      * assert (0 < s) as Ps by (destruct s; [cbn in N0; congruence|lia]).
        destruct (Nat.ltb_spec s k) as [Lt|Ge].
        -- exists s. split; [apply At; right; auto|]. split; [lia|]. split; [reflexivity|].
           intros j Aj Pj. apply At in Aj as [Aj|[_ Fj]]; [pose proof (Mn j Aj Pj); lia|]. rewrite (first_match_unique _ _ _ _ Fj E). lia.
        -- exists k. split; [apply At; now left|]. split; [exact Lk|]. split; [reflexivity|].
           intros j Aj Pj. apply At in Aj as [Aj|[_ Fj]]; [now apply Mn|]. rewrite (first_match_unique _ _ _ _ Fj E). lia.
    + (* empty so far *)
      destruct (Nat.eq_dec s (length name)) as [->|Ns].
      * rewrite firstn_all. right. left. split; [|split; [apply At; now left|]].
        -- intros k Hk. apply At in Hk as [Hk|[_ Fk]]; [now apply Nk|]. rewrite (first_match_unique _ _ _ _ Fk E). lia.
        -- destruct name as [|c name]; [reflexivity|]. rewrite (str_eqb_refl (c :: name)). cbn [negb]. rewrite andb_false_r.
           cbn [length Nat.ltb Nat.leb]. rewrite andb_false_r. reflexivity.
      * assert (str_eqb (firstn s name) name = false) as Nf by (apply str_eqb_neq; rewrite firstn_eq_name; lia).
        rewrite Nf, str_eqb_refl. cbn [negb andb]. rewrite orb_true_r. cbn [orb].
        destruct s as [|s].
        -- cbn [firstn]. right. left. split; [|split; [apply At; now left|reflexivity]].
           intros k Hk. apply At in Hk as [Hk|[_ Fk]]; [now apply Nk|]. rewrite (first_match_unique _ _ _ _ Fk E). lia.
        -- left. exists (S s). split; [apply At; right; auto|]. split; [lia|]. split; [reflexivity|].
           intros j Aj Pj. apply At in Aj as [Aj|[_ Fj]]; [|rewrite (first_match_unique _ _ _ _ Fj E); lia].
           pose proof (Nk j Aj). assert (j <= length name) by (destruct Aj as (x & _ & _ & [[? _] _]); assumption). lia.
    + (* unchanged so far *)
      rewrite str_eqb_refl. cbn [orb].
      destruct (Nat.eq_dec s (length name)) as [->|Ns].
      * right. right. split; [|now rewrite firstn_all]. intros k Hk. apply At in Hk as [Hk|[_ Fk]]; [now apply Nk|].
        now rewrite (first_match_unique _ _ _ _ Fk E).
      * destruct s as [|s].
        -- right. left. split; [|split; [apply At; right; auto|reflexivity]]. intros k Hk. apply At in Hk as [Hk|[_ Fk]]; [rewrite (Nk k Hk); lia|].
           rewrite (first_match_unique _ _ _ _ Fk E). lia.
        -- left. exists (S s). split; [apply At; right; auto|]. split; [lia|]. split; [reflexivity|].
           intros j Aj Pj. apply At in Aj as [Aj|[_ Fj]]; [rewrite (Nk j Aj); lia|]. rewrite (first_match_unique _ _ _ _ Fj E). lia.
  - (* no match *)
    assert (forall k, (exists x, In x (act ++ [r]) /\ r_include x = true /\ first_match x name k) <->
              (exists x, In x act /\ r_include x = true /\ first_match x name k)) as At2.
    { intros k. rewrite At. split; [|now left]. intros [H|[_ [M _]]]; [exact H|]. exfalso. exact (E k M). }
    unfold so_far. cbv zeta. destruct S as [(k & Ak & Lk & -> & Mn)|[(Nk & A0 & ->)|(Nk & ->)]].
    + left. exists k. split; [now apply At2|]. split; [exact Lk|]. split; [reflexivity|]. intros j Aj. apply Mn. now apply At2.
    + right. left. split; [intros k Hk; apply Nk; now apply At2|]. split; [now apply At2|reflexivity].
    + right. right. split; [intros k Hk; apply Nk; now apply At2|reflexivity].
Qed.

Lemma strip_left_over name rules : left_over rules name (fold_left (strip_step name) rules name).
Proof.
  assert (forall rest done act result, active done name act -> so_far act name result ->
            left_over (done ++ rest) name (fold_left (strip_step name) rest result)) as G.
  { induction rest as [|r rest IH]; intros done act result A S; cbn [fold_left].
    - rewrite app_nil_r. exists act. auto.
    - replace (done ++ r :: rest) with ((done ++ [r]) ++ rest) by now rewrite <- app_assoc.
      destruct (r_include r) eqn:Ri; [|destruct (end_match r name) as [k|] eqn:Em].
      + apply (IH _ (act ++ [r])).
        * destruct A as [A1 A2]. split.
          -- destruct A1 as [->|(b & x & k & -> & X)]; [now left|]. right. exists b, x, k. split; [now rewrite <- app_assoc|exact X].
          -- intros x k I. apply in_app_iff in I as [I|[<-|[]]]; [now apply A2|]. congruence.
        * apply so_far_step; [exact S|]. congruence.
      + pose proof (end_match_spec r name) as E. rewrite Em in E.
        apply (IH _ []).
        * split; [|intros x j []]. right. exists done, r, k. split; [reflexivity|]. split; [exact Ri|exact (proj1 E)].
        * rewrite strip_step_end, Em, Ri. right. right. split; [|reflexivity]. intros j (x & [] & _).
      + pose proof (end_match_spec r name) as E. rewrite Em in E.
        apply (IH _ (act ++ [r])).
        * destruct A as [A1 A2]. split.
          -- destruct A1 as [->|(b & x & k & -> & X)]; [now left|]. right. exists b, x, k. split; [now rewrite <- app_assoc|exact X].
          -- intros x k I. apply in_app_iff in I as [I|[<-|[]]]; [now apply A2|]. intros _. apply E.
        * apply so_far_step; [exact S|]. intros _. exact E. }
  apply (G rules [] [] name).
  - split; [now left|]. intros x k [].
  - right. right. split; [|reflexivity]. intros k (x & [] & _).
Qed.

(** ** Names that do not start with a dot *)
Definition best (name : str) (acc : option nat) (r : rule) : option nat :=
  match end_match r name with
  | Some k => if r_include r then Some (match acc with Some a => Nat.min a k | None => k end) else None
  | None => acc
  end.
Definition cut (name : str) (acc : option nat) : str := match acc with Some k => firstn k name | None => name end.

Lemma strip_best name rules : (forall r, In r rules -> ~ matches r name 0) ->
  fold_left (strip_step name) rules name = cut name (fold_left (best name) rules None).
Proof.
  intros N.
  assert (forall rules acc, (forall r, In r rules -> ~ matches r name 0) -> (forall k, acc = Some k -> 0 < k <= length name) ->
    fold_left (strip_step name) rules (cut name acc) = cut name (fold_left (best name) rules acc)) as G.
  { clear rules N. induction rules as [|r rules IH]; intros acc N A; [reflexivity|]. cbn [fold_left].
    assert (strip_step name (cut name acc) r = cut name (best name acc r) /\ (forall k, best name acc r = Some k -> 0 < k <= length name)) as [E B].
    { rewrite strip_step_end. unfold best. pose proof (end_match_spec r name) as S. destruct (end_match r name) as [s|]; [|now split].
      assert (0 < s <= length name) as Ps.
      { destruct S as [M F]. split; [|exact (proj1 M)]. destruct s; [|lia]. exfalso. apply (N r); [now left|exact M]. }
      destruct (r_include r); [|split; [reflexivity|discriminate]]. destruct acc as [a|]; cbn [cut].
      - specialize (A a eq_refl). split; [|intros k [= <-]; lia].
        assert (str_eqb (firstn a name) [] = false) as ->.
        { apply str_eqb_neq. rewrite firstn_nil_iff. intros [?|?]; [lia|subst; cbn in A; lia]. }
        assert (str_eqb (firstn s name) [] = false) as ->.
        { apply str_eqb_neq. rewrite firstn_nil_iff. intros [?|?]; [lia|subst; cbn in A; lia]. }
        cbn [andb negb]. rewrite orb_false_r. rewrite !firstn_length, !(Nat.min_l _ (length name)) by lia.
        destruct (str_eqb_spec (firstn a name) name) as [Ea|Na]; cbn [orb].
        + apply firstn_eq_name in Ea. now rewrite Nat.min_r by lia.
        + destruct (Nat.ltb_spec s a); [now rewrite Nat.min_r by lia|now rewrite Nat.min_l by lia].
      - rewrite str_eqb_refl. split; [reflexivity|]. intros k [= <-]. exact Ps. }
    rewrite E. apply IH; [|exact B]. intros x I. apply N. now right. }
  apply (G rules None N). discriminate.
Qed.

Lemma end_match_iff r name k : end_match r name = Some k <-> first_match r name k.
Proof.
  pose proof (end_match_spec r name) as S. destruct (end_match r name) as [j|].
  - split; [intros [= <-]; exact S|]. intros H. f_equal. exact (first_match_unique _ _ _ _ S H).
  - split; [discriminate|]. intros [M _]. exfalso. exact (S k M).
Qed.

Lemma matches_globs_app inc a b name k :
  matches (mkRule inc (Globs (a ++ b))) name k <-> matches (mkRule inc (Globs a)) name k \/ matches (mkRule inc (Globs b)) name k.
Proof.
  unfold matches. cbn [r_regex is_suffix]. split.
  - intros (L & p & I & G). apply in_app_iff in I as [I|I]; [left|right]; (split; [exact L|]); eauto.
  - intros [(L & p & I & G)|(L & p & I & G)]; (split; [exact L|]); exists p; (split; [apply in_or_app; tauto|exact G]).
Qed.

Lemma end_match_app inc a b name : end_match (mkRule inc (Globs (a ++ b))) name =
  match end_match (mkRule inc (Globs a)) name, end_match (mkRule inc (Globs b)) name with
  | Some x, Some y => Some (Nat.min x y) | Some x, None => Some x | None, y => y end.
Proof.
  pose proof (end_match_spec (mkRule inc (Globs a)) name) as A. pose proof (end_match_spec (mkRule inc (Globs b)) name) as B.
  destruct (end_match (mkRule inc (Globs a)) name) as [x|]; destruct (end_match (mkRule inc (Globs b)) name) as [y|].
  - apply end_match_iff. destruct A as [MA FA], B as [MB FB]. split.
    + apply matches_globs_app. destruct (Nat.le_gt_cases x y); [left; now rewrite Nat.min_l by lia|right; now rewrite Nat.min_r by lia].
    + intros j M. apply matches_globs_app in M as [M|M]; [apply FA in M|apply FB in M]; lia.
  - apply end_match_iff. destruct A as [MA FA]. split; [apply matches_globs_app; now left|].
    intros j M. apply matches_globs_app in M as [M|M]; [now apply FA|exfalso; exact (B j M)].
  - apply end_match_iff. destruct B as [MB FB]. split; [apply matches_globs_app; now right|].
    intros j M. apply matches_globs_app in M as [M|M]; [exfalso; exact (A j M)|now apply FB].
  - pose proof (end_match_spec (mkRule inc (Globs (a ++ b))) name) as C. destruct (end_match _ name) as [z|]; [|reflexivity].
    exfalso. destruct C as [M _]. apply matches_globs_app in M as [M|M]; [exact (A z M)|exact (B z M)].
Qed.

(** One rule for several globs has the effect of one rule for each. *)
Lemma best_group inc name ps : forall acc, ps <> [] ->
  best name acc (mkRule inc (Globs ps)) = fold_left (best name) (map (fun p => mkRule inc (Globs [p])) ps) acc.
Proof.
  induction ps as [|p ps IH]; intros acc N; [congruence|]. cbn [map fold_left].
  destruct ps as [|q ps]; [reflexivity|]. rewrite <- IH by discriminate.
  change (p :: q :: ps) with ([p] ++ (q :: ps)). unfold best. rewrite end_match_app. cbn [r_include].
  destruct (end_match (mkRule inc (Globs [p])) name) as [x|]; destruct (end_match (mkRule inc (Globs (q :: ps))) name) as [y|]; try reflexivity;
    destruct inc; try reflexivity; destruct acc as [a|]; try reflexivity. f_equal. lia.
Qed.

Lemma best_spec name rules : shortest_left rules name (cut name (fold_left (best name) rules None)).
Proof.
  assert (forall rest done acc, 
    (exists act, active done name act /\
      match acc with
      | Some k => exists r, In r act /\ matches r name k /\ forall r' j, In r' act -> matches r' name j -> k <= j
      | None => forall r k, In r act -> ~ matches r name k end) ->
    exists act, active (done ++ rest) name act /\
      match fold_left (best name) rest acc with
      | Some k => exists r, In r act /\ matches r name k /\ forall r' j, In r' act -> matches r' name j -> k <= j
      | None => forall r k, In r act -> ~ matches r name k end) as G.
  { induction rest as [|r rest IH]; intros done acc H; cbn [fold_left]; [now rewrite app_nil_r|].
    replace (done ++ r :: rest) with ((done ++ [r]) ++ rest) by now rewrite <- app_assoc.
    apply IH. destruct H as (act & [A1 A2] & H). unfold best. pose proof (end_match_spec r name) as S.
    assert (forall P : list rule -> Prop, (r_include r = false -> forall k, ~ matches r name k) -> P (act ++ [r]) ->
              exists act', active (done ++ [r]) name act' /\ P act') as Ext.
    { intros P Hx HP. exists (act ++ [r]). split; [|exact HP]. split.
      - destruct A1 as [->|(b & x & k & -> & X)]; [now left|]. right. exists b, x, k. split; [now rewrite <- app_assoc|exact X].
      - intros x k I. apply in_app_iff in I as [I|[<-|[]]]; [now apply A2|]. intros F. now apply Hx. }
    destruct (end_match r name) as [k|].
    - destruct (r_include r) eqn:Ri.
      + apply (Ext (fun act => _)); [congruence|]. destruct S as [M F]. destruct acc as [a|].
        * destruct H as (x & Ix & Mx & Fx). destruct (Nat.le_gt_cases a k) as [Le|Gt].
          -- rewrite Nat.min_l by lia. exists x. split; [apply in_or_app; now left|]. split; [exact Mx|].
             intros r' j I Mj. apply in_app_iff in I as [I|[<-|[]]]; [now apply (Fx r')|]. apply F in Mj. lia.
          -- rewrite Nat.min_r by lia. exists r. split; [apply in_or_app; right; now left|]. split; [exact M|].
             intros r' j I Mj. apply in_app_iff in I as [I|[<-|[]]]; [apply (Fx r') in Mj; [lia|exact I]|now apply F].
        * exists r. split; [apply in_or_app; right; now left|]. split; [exact M|].
          intros r' j I Mj. apply in_app_iff in I as [I|[<-|[]]]; [exfalso; exact (H r' j I Mj)|now apply F].
      + exists []. split; [|intros x j []]. split; [|intros x j []]. right. exists done, r, k. split; [reflexivity|]. split; [exact Ri|exact (proj1 S)].
    - apply (Ext (fun act => _)); [intros _; exact S|]. destruct acc as [a|].
      + destruct H as (x & Ix & Mx & Fx). exists x. split; [apply in_or_app; now left|]. split; [exact Mx|].
        intros r' j I Mj. apply in_app_iff in I as [I|[<-|[]]]; [now apply (Fx r')|]. exfalso. exact (S j Mj).
      + intros x j I. apply in_app_iff in I as [I|[<-|[]]]; [now apply H|apply S]. }
  destruct (G rules [] None) as (act & A & H).
  - exists []. split; [|intros r k []]. split; [now left|]. intros x k [].
  - cbn [app] in *. exists act. split; [exact A|]. destruct (fold_left (best name) rules None) as [k|]; cbn [cut].
    + destruct H as (r & I & M & F). left. exists r, k. repeat (split; [assumption || reflexivity|]). exact F.
    + right. auto.
Qed.

Lemma strip_name path rules : ~ In slash path -> strip_suffix path rules = fold_left (strip_step path) rules path.
Proof. intros N. unfold strip_suffix. now rewrite (proj2 (rsplit1_None slash path) N). Qed.
Lemma strip_path folder name rules : ~ In slash name ->
  strip_suffix (folder ++ slash :: name) rules = folder ++ slash :: fold_left (strip_step name) rules name.
Proof. intros N. unfold strip_suffix. rewrite (proj2 (rsplit1_Some slash _ folder name)) by auto. reflexivity. Qed.

(** ** Reading the patterns *)
Lemma ends_with_false p s : ends_with p s = false <-> ~ exists t, s = t ++ p.
Proof.
  destruct (ends_with p s) eqn:E.
  - apply ends_with_spec in E. split; [discriminate|contradiction].
  - split; [|reflexivity]. intros _ H. apply ends_with_spec in H. congruence.
Qed.

Lemma firstn_app_exact {X} (a b : list X) : firstn (length (a ++ b) - length b) (a ++ b) = a.
Proof. rewrite app_length. replace (length a + length b - length b) with (length a) by lia. rewrite firstn_app, Nat.sub_diag, firstn_all. cbn. apply app_nil_r. Qed.

Lemma negations_spec fuel : forall inc p inc' core, length p <= fuel -> negations fuel inc p = (inc', core) ->
  exists n, p = core ++ concat (repeat $"/-" n) /\ inc' = (if Nat.even n then inc else negb inc) /\ ~ exists t, core = t ++ $"/-".
Proof.
  induction fuel as [|f IH]; intros inc p inc' core L H; cbn [negations] in H.
  - injection H as <- <-. destruct p; [|cbn in L; lia]. exists 0. split; [reflexivity|]. split; [reflexivity|]. intros (t & E). destruct t; discriminate.
  - destruct (ends_with $"/-" p) eqn:E.
    + apply ends_with_spec in E as (t & ->). change 2 with (length $"/-") in H. rewrite firstn_app_exact in H.
      apply IH in H as (n & -> & -> & N); [|rewrite app_length in L; cbn in L; lia].
      exists (S n). split; [|split; [|exact N]].
      * rewrite <- app_assoc. f_equal. clear. induction n as [|n IHn]; [reflexivity|]. cbn [repeat concat] in *. rewrite <- app_assoc. now rewrite IHn at 1.
      * rewrite Nat.even_succ. rewrite <- Nat.negb_even. destruct (Nat.even n), inc; reflexivity.
    + injection H as <- <-. exists 0. split; [now rewrite app_nil_r|]. split; [reflexivity|]. now apply ends_with_false.
Qed.

Lemma lstrip_spec c s : exists n t, s = repeat c n ++ t /\ lstrip c s = t /\ forall r, t <> c :: r.
Proof.
  induction s as [|x s IH]; [exists 0, []; cbn; repeat split; discriminate|]. cbn [lstrip]. destruct (char_eqb_spec x c) as [->|N].
  - destruct IH as (n & t & E & L & H). exists (S n), t. cbn [repeat app]. split; [now f_equal|]. split; [rewrite lstrip_sep; exact L|exact H].
  - exists 0, (x :: s). split; [reflexivity|]. split; [now apply lstrip_id|congruence].
Qed.

Lemma rev_repeat {X} (c : X) n : rev (repeat c n) = repeat c n.
Proof. induction n as [|n IH]; [reflexivity|]. cbn [repeat rev]. rewrite IH. apply repeat_snoc. Qed.

Lemma lstrip_repeat c n t : (forall r, t <> c :: r) -> lstrip c (repeat c n ++ t) = t.
Proof.
  intros H. induction n as [|n IH]; cbn [repeat app].
  - destruct t as [|x t]; [reflexivity|]. apply lstrip_id. intros ->. exact (H t eq_refl).
  - rewrite lstrip_sep. exact IH.
Qed.

Lemma category_of_spec core name : name <> [] -> (category_of core = name <-> is_category core name).
Proof.
  intros Nn. unfold category_of. split.
  - destruct (starts_with $"/" core) eqn:E; [|congruence]. apply starts_with_spec in E as (t & ->).
    unfold strip, rstrip. change ($"/" ++ t) with (slash :: t). rewrite lstrip_sep.
    destruct (lstrip_spec slash t) as (n & u & -> & -> & Hu). destruct (lstrip_spec slash (rev u)) as (m & v & Ev & -> & Hv).
    intros <-. apply (f_equal (@rev _)) in Ev. rewrite rev_involutive, rev_app_distr, rev_repeat in Ev.
    exists n, m. split; [now rewrite Ev|]. split; [exact Nn|]. split.
    + intros r Er. rewrite Er in Ev. cbn [app] in Ev. exact (Hu _ Ev).
    + intros r Er. apply (f_equal (@rev _)) in Er. rewrite rev_involutive, rev_app_distr in Er. exact (Hv _ Er).
  - intros (n & m & -> & _ & H1 & H2). cbn [repeat app]. change (starts_with $"/" ("/"%char :: repeat "/"%char n ++ name ++ repeat "/"%char m)) with true.
    cbn iota. unfold strip, rstrip. change "/"%char with slash. rewrite lstrip_sep. change slash with "/"%char.
    rewrite lstrip_repeat.
    2:{ intros r E. destruct name as [|x name]; [congruence|]. cbn [app] in E. apply (H1 name). congruence. }
    rewrite rev_app_distr, rev_repeat, lstrip_repeat; [apply rev_involutive|].
    intros r E. apply (f_equal (@rev _)) in E. rewrite rev_involutive in E. cbn [rev] in E. exact (H2 _ E).
Qed.

Section Patterns.
  Variable translate : str -> list gtok.
  Variable categories : str -> option (list str).

  Notation single inc := (fun x => mkRule inc (Globs [translate (dotted x)])).

  Lemma dotted_eq x : dotted x = match x with "."%char :: _ => x | _ => "."%char :: x end.
  Proof.
    destruct x as [|c x]; [reflexivity|]. unfold dotted. cbn [starts_with list_ascii_of_string].
    destruct c as [[] [] [] [] [] [] [] []]; reflexivity.
  Qed.

  (** The rules of a pattern, as a function. *)
  Definition entry_rules (p : str) : list rule :=
    let '(inc, core) := negations (length p) true p in
    let category := category_of core in
    if str_eqb category [] then [single inc core]
    else if str_eqb category $"split" then [mkRule inc SplitExt]
    else match categories category with Some ps => map (single inc) ps | None => [] end.

  Lemma entry_rules_spec p : entry translate categories p (entry_rules p).
  Proof.
    unfold entry_rules. destruct (negations (length p) true p) as [inc core] eqn:E.
    assert (reads p inc core) as R.
    { destruct (negations_spec _ _ _ _ _ (le_n _) E) as (n & Ep & Ei & N). exists n. split; [exact Ep|]. split; [|exact N]. now destruct (Nat.even n). }
    destruct (str_eqb_spec (category_of core) []) as [E0|N0].
    - rewrite dotted_eq. apply (entry_glob _ _ p inc core R). intros name C.
      assert (name <> []) as Nn by (destruct C as (? & ? & _ & ? & _); assumption).
      apply (category_of_spec core name Nn) in C. congruence.
    - pose proof (proj1 (category_of_spec core _ N0) eq_refl) as C.
      destruct (str_eqb_spec (category_of core) $"split") as [Es|Ns].
      + rewrite Es in C. exact (entry_split _ _ p inc core R C).
      + destruct (categories (category_of core)) as [ps|] eqn:Ec.
        * rewrite (map_ext (single inc) (fun x => mkRule inc (Globs [translate (match x with "."%char :: _ => x | _ => "."%char :: x end)]))) by (intros x; now rewrite dotted_eq).
          exact (entry_category _ _ p inc core _ ps R C Ns Ec).
        * exact (entry_unknown _ _ p inc core _ R C Ns Ec).
  Qed.

  Lemma reads_unique p i1 c1 i2 c2 : reads p i1 c1 -> reads p i2 c2 -> i1 = i2 /\ c1 = c2.
  Proof.
    assert (forall n m (a b : str), n < m -> a ++ concat (repeat $"/-" n) = b ++ concat (repeat $"/-" m) -> exists t, a = t ++ $"/-") as Lt.
    { intros n m a b L E. replace m with (S (m - n - 1) + n) in E by lia. rewrite repeat_app, concat_app, app_assoc in E.
      apply app_inv_tail in E. exists (b ++ concat (repeat $"/-" (m - n - 1))). rewrite E, <- app_assoc. f_equal.
      clear. induction (m - n - 1) as [|k IH]; [reflexivity|]. cbn [repeat concat] in *. rewrite <- app_assoc. now rewrite <- IH. }
    intros (n & E1 & -> & N1) (m & E2 & -> & N2). rewrite E1 in E2. destruct (Nat.lt_trichotomy n m) as [L|[->|L]].
    - exfalso. apply N1. exact (Lt _ _ _ _ L E2).
    - split; [reflexivity|]. now apply app_inv_tail in E2.
    - exfalso. apply N2. exact (Lt _ _ _ _ L (eq_sym E2)).
  Qed.

  Lemma entry_unique p rs : entry translate categories p rs -> rs = entry_rules p.
  Proof.
    intros H. unfold entry_rules. destruct (negations (length p) true p) as [inc core] eqn:E.
    assert (reads p inc core) as R.
    { destruct (negations_spec _ _ _ _ _ (le_n _) E) as (n & Ep & Ei & N). exists n. split; [exact Ep|]. split; [|exact N]. now destruct (Nat.even n). }
    destruct H as [p inc' core' R' C|p inc' core' name ps R' C Ns Ec|p inc' core' name R' C Ns Ec|p inc' core' R' C];
      destruct (reads_unique _ _ _ _ _ R' R) as [-> ->].
    - apply category_of_spec in C as Ec; [|discriminate]. rewrite Ec. reflexivity.
    - assert (name <> []) as Nn by (destruct C as (? & ? & _ & ? & _); assumption).
      apply category_of_spec in C as Ek; [|exact Nn]. rewrite Ek. destruct (str_eqb_spec name []); [congruence|].
      destruct (str_eqb_spec name $"split"); [congruence|]. rewrite Ec. apply map_ext. intros x. now rewrite dotted_eq.
    - assert (name <> []) as Nn by (destruct C as (? & ? & _ & ? & _); assumption).
      apply category_of_spec in C as Ek; [|exact Nn]. rewrite Ek. destruct (str_eqb_spec name []); [congruence|].
      destruct (str_eqb_spec name $"split"); [congruence|]. now rewrite Ec.
    - destruct (str_eqb_spec (category_of core) []) as [E0|N0]; [now rewrite dotted_eq|].
      exfalso. apply (C (category_of core)). now apply category_of_spec.
  Qed.

  Lemma flush_best name rules inc ps acc :
    fold_left (best name) (flush translate rules inc ps) acc = fold_left (best name) (map (single inc) ps) (fold_left (best name) rules acc).
  Proof.
    unfold flush. destruct ps as [|p ps]; [reflexivity|]. rewrite fold_left_app. cbn [fold_left].
    rewrite best_group by discriminate. rewrite map_map. reflexivity.
  Qed.

  Lemma compile_best name patterns : forall rules inc ps acc,
    fold_left (best name) (compile_loop translate categories patterns rules inc ps) acc =
    fold_left (best name) (concat (map entry_rules patterns)) (fold_left (best name) (map (single inc) ps) (fold_left (best name) rules acc)).
  Proof.
    induction patterns as [|p rest IH]; intros rules inc ps acc; [apply flush_best|].
    cbn [compile_loop map concat]. rewrite fold_left_app. unfold entry_rules at 2.
    destruct (negations (length p) true p) as [include core]. set (category := category_of core).
    destruct (str_eqb_spec category $"split") as [Es|Ns].
    - rewrite orb_true_r. destruct (str_eqb_spec category []) as [E0|_]; [rewrite Es in E0; discriminate E0|]. cbn [negb].
      rewrite IH. rewrite fold_left_app, flush_best. reflexivity.
    - rewrite orb_false_r. destruct (Bool.eqb include inc) eqn:Ei; cbn [negb].
      + apply Bool.eqb_prop in Ei. subst inc. destruct (str_eqb_spec category []) as [E0|N0]; cbn [negb].
        * rewrite IH, map_app, fold_left_app. reflexivity.
        * destruct (categories category) as [qs|]; rewrite IH; [|reflexivity]. rewrite map_app, fold_left_app. reflexivity.
      + destruct (str_eqb_spec category []) as [E0|N0]; cbn [negb].
        * rewrite IH. cbn [app map fold_left]. rewrite flush_best. reflexivity.
        * destruct (categories category) as [qs|]; rewrite IH; cbn [app map fold_left]; rewrite flush_best; reflexivity.
  Qed.

  (** All rules only match suffixes that start with a dot. *)
  Hypothesis translate_dot : forall p x, glob (translate ("."%char :: p)) x -> exists r, x = "."%char :: r.

  Lemma dotted_suffix p x : glob (translate (dotted p)) x -> exists r, x = "."%char :: r.
  Proof.
    unfold dotted. destruct (starts_with $"." p) eqn:E; [|apply translate_dot].
    apply starts_with_spec in E as (t & ->). apply translate_dot.
  Qed.

  Lemma flush_dot rules inc ps : (forall r x, In r rules -> is_suffix (r_regex r) x -> exists y, x = "."%char :: y) ->
    forall r x, In r (flush translate rules inc ps) -> is_suffix (r_regex r) x -> exists y, x = "."%char :: y.
  Proof.
    intros H r x. unfold flush. destruct ps as [|p ps]; [apply H|]. intros I. apply in_app_iff in I as [I|[<-|[]]]; [now apply H|].
    intros (q & Iq & G). apply in_map_iff in Iq as (y & <- & _). exact (dotted_suffix y x G).
  Qed.

  Lemma compile_dot patterns : forall rules inc ps, (forall r x, In r rules -> is_suffix (r_regex r) x -> exists y, x = "."%char :: y) ->
    forall r x, In r (compile_loop translate categories patterns rules inc ps) -> is_suffix (r_regex r) x -> exists y, x = "."%char :: y.
  Proof.
    induction patterns as [|p rest IH]; intros rules inc ps H; [exact (flush_dot rules inc ps H)|].
    cbn [compile_loop]. destruct (negations (length p) true p) as [include core].
    destruct (negb (Bool.eqb include inc) || str_eqb (category_of core) $"split").
    - destruct (negb (str_eqb (category_of core) [])); [|apply IH; now apply flush_dot].
      destruct (str_eqb (category_of core) $"split").
      + apply IH. intros r x I. apply in_app_iff in I as [I|[<-|[]]]; [now apply (flush_dot rules inc ps H)|]. cbn [r_regex]. apply first_part_dot.
      + destruct (categories (category_of core)); apply IH; now apply flush_dot.
    - destruct (negb (str_eqb (category_of core) [])); [|now apply IH].
      destruct (str_eqb (category_of core) $"split").
      + apply IH. intros r x I. apply in_app_iff in I as [I|[<-|[]]]; [now apply H|]. cbn [r_regex]. apply first_part_dot.
      + destruct (categories (category_of core)); now apply IH.
  Qed.

  Lemma compiled_no_start patterns name : (forall r, name <> "."%char :: r) ->
    forall r, In r (compile_suffix_rules translate categories patterns) -> ~ matches r name 0.
  Proof.
    intros N r I [_ S]. cbn [skipn] in S. destruct (compile_dot patterns [] true [] ltac:(intros ? ? []) r name I S) as (y & E). exact (N y E).
  Qed.

  Lemma compiled_strip patterns rss name : Forall2 (entry translate categories) patterns rss -> (forall r, name <> "."%char :: r) ->
    shortest_left (concat rss) name (fold_left (strip_step name) (compile_suffix_rules translate categories patterns) name).
  Proof.
    intros E N. rewrite strip_best by now apply compiled_no_start. unfold compile_suffix_rules. rewrite compile_best. cbn [map fold_left].
    replace (map entry_rules patterns) with rss; [apply best_spec|]. clear N.
    induction E as [|p rs ps rss H _ IH]; [reflexivity|]. cbn [map]. rewrite <- (entry_unique p rs H). now f_equal.
  Qed.
End Patterns.

Lemma left_over_prefix rules name result : left_over rules name result -> exists t, name = result ++ t.
Proof.
  intros (act & _ & [(k & _ & _ & -> & _)|[(_ & _ & ->)|(_ & ->)]]).
  - exists (skipn k name). now rewrite firstn_skipn.
  - now exists name.
  - exists []. now rewrite app_nil_r.
Qed.

Lemma active_includes rules name act : (forall r, In r rules -> r_include r = true) -> active rules name act -> act = rules.
Proof.
  intros H [[->|(b & x & k & -> & F & _)] _]; [reflexivity|]. rewrite (H x) in F; [discriminate|]. apply in_or_app. right. now left.
Qed.

Lemma left_over_same_rules rules1 rules2 name a b : (forall r, In r rules1 -> r_include r = true) -> (forall r, In r rules1 <-> In r rules2) ->
  left_over rules1 name a -> left_over rules2 name b -> a = b.
Proof.
  intros I1 Same (act1 & A1 & H1) (act2 & A2 & H2).
  apply active_includes in A1; [|exact I1]. apply active_includes in A2; [|intros r I; apply I1; now apply Same]. subst act1 act2.
  assert (forall k, (exists r, In r rules1 /\ r_include r = true /\ first_match r name k) <-> (exists r, In r rules2 /\ r_include r = true /\ first_match r name k)) as At.
  { intros k. split; intros (r & I & X); exists r; (split; [now apply Same|exact X]). }
  cbv zeta in H1, H2.
  destruct H1 as [(k & Ak & Lk & -> & Mk)|[(Nk & A0 & ->)|(Nk & ->)]]; destruct H2 as [(j & Aj & Lj & -> & Mj)|[(Nj & B0 & ->)|(Nj & ->)]].
  - assert (k = j) as -> by (apply At in Ak as Bk; apply At in Aj as Bj; pose proof (Mk j Bj (proj1 Lj)); pose proof (Mj k Bk (proj1 Lk)); lia). reflexivity.
  - exfalso. apply At in Ak. exact (Nj k Ak Lk).
  - exfalso. apply At in Ak. rewrite (Nj k Ak) in Lk. lia.
  - exfalso. apply At in Aj. exact (Nk j Aj Lj).
  - reflexivity.
  - apply At in A0. pose proof (Nj 0 A0). destruct name; [reflexivity|cbn in *; lia].
  - exfalso. apply At in Aj. rewrite (Nk j Aj) in Lj. lia.
  - apply At in B0. pose proof (Nk 0 B0). destruct name; [reflexivity|cbn in *; lia].
  - reflexivity.
Qed.

Lemma strip_exclusion name r1 x r2 k : r_include x = false -> matches x name k ->
  fold_left (strip_step name) (r1 ++ x :: r2) name = fold_left (strip_step name) r2 name.
Proof.
  intros Rx M. rewrite fold_left_app. cbn [fold_left]. f_equal. rewrite strip_step_end.
  destruct (matches_end x name k M) as (j & -> & _). now rewrite Rx.
Qed.

Lemma strip_unchanged name rules : (forall r k, In r rules -> r_include r = true -> ~ matches r name k) -> fold_left (strip_step name) rules name = name.
Proof.
  induction rules as [|r rules IH]; intros N; [reflexivity|]. cbn [fold_left].
  assert (strip_step name name r = name) as ->.
  { rewrite strip_step_end. pose proof (end_match_spec r name) as S. destruct (end_match r name) as [k|]; [|reflexivity].
    destruct (r_include r) eqn:Ri; [|reflexivity]. exfalso. exact (N r k (or_introl eq_refl) Ri (proj1 S)). }
  apply IH. intros x k I. apply N. now right.
Qed.

(** ** The mount point *)
Lemma app_longer (s t : str) : t <> [] -> s ++ t <> s.
Proof. intros N E. apply N. rewrite <- (app_nil_r s) in E at 2. now apply app_inv_head in E. Qed.

Lemma mount_point_differs translate categories source : determine_mount_point translate categories source <> source.
Proof.
  unfold determine_mount_point. cbv zeta. match goal with |- (if str_eqb ?m source then _ else _) <> _ => destruct (str_eqb_spec m source) as [E|N] end; [|exact N].
  rewrite E. now apply app_longer.
Qed.

Lemma skipn_app_le {X} k : forall (a b : list X), k <= length a -> skipn k (a ++ b) = skipn k a ++ b.
Proof. intros a b L. rewrite skipn_app. now replace (k - length a) with 0 by lia. Qed.

Lemma contains_spec needle s : contains needle s = true <-> exists a b, s = a ++ needle ++ b.
Proof.
  unfold contains. rewrite existsb_exists. split.
  - intros (i & _ & H). apply starts_with_spec in H as (b & E). exists (firstn i s), b. rewrite <- E. now rewrite firstn_skipn.
  - intros (a & b & ->). exists (length a). split; [apply in_seq; rewrite app_length; lia|].
    rewrite skipn_app, skipn_all, Nat.sub_diag. cbn [skipn app]. apply starts_with_app.
Qed.

Section Mount.
  Variable translate : str -> list gtok.
  Variable categories : str -> option (list str).
  Hypothesis translate_dot : forall p x, glob (translate ("."%char :: p)) x -> exists r, x = "."%char :: r.

  Lemma strip_name_nonempty patterns name : name <> [] -> (forall r, name <> "."%char :: r) ->
    exists k, 0 < k /\ fold_left (strip_step name) (compile_suffix_rules translate categories patterns) name = firstn k name.
  Proof.
    intros Nn Nd. pose proof (strip_left_over name (compile_suffix_rules translate categories patterns)) as (act & A & H).
    cbv zeta in H. destruct H as [(k & _ & L & -> & _)|[(_ & (r & I & _ & [M _]) & _)|(_ & ->)]].
    - exists k. split; [lia|reflexivity].
    - exfalso. apply (compiled_no_start translate categories translate_dot patterns name Nd r); [|exact M].
      destruct A as [[->|(b & x & j & -> & _)] _]; [exact I|]. apply in_or_app. right. now right.
    - exists (length name). split; [destruct name; [congruence|cbn; lia]|]. now rewrite firstn_all.
  Qed.

  Lemma strip_place folder name rules : ~ In slash name ->
    strip_suffix (place folder name) rules = place folder (fold_left (strip_step name) rules name).
  Proof. intros N. destruct folder as [f|]; [now apply strip_path|now apply strip_name]. Qed.

  Lemma place_inj folder a b : place folder a = place folder b -> a = b.
  Proof. destruct folder as [f|]; [|tauto]. cbn. intros E. apply app_inv_head in E. congruence. Qed.

  Lemma splitext0_place folder name : ~ In slash name ->
    splitext0 (place folder name) = place folder (match rsplit1 dotc name with
                                                  | Some (a, _) => if forallb (fun c => char_eqb c dotc) a then name else a | None => name end).
  Proof.
    intros N. unfold splitext0. destruct folder as [f|]; cbn [place].
    - change "/"%char with slash. rewrite (proj2 (rsplit1_Some slash _ f name)) by auto. destruct (rsplit1 dotc name) as [[a e]|]; [|reflexivity].
      destruct (forallb (fun c => char_eqb c dotc) a); [reflexivity|]. now rewrite <- app_assoc.
    - rewrite (proj2 (rsplit1_None slash name) N). destruct (rsplit1 dotc name) as [[a e]|]; [|reflexivity].
      now destruct (forallb (fun c => char_eqb c dotc) a).
  Qed.

  Lemma mount_point_local folder name : name <> [] -> ~ In slash name -> (forall r, name <> "."%char :: r) ->
    (forall a b, place folder name <> a ++ $"://" ++ b) ->
    exists name', determine_mount_point translate categories (place folder name) = place folder name' /\ name' <> [] /\ ~ In slash name' /\
      ((exists t, t <> [] /\ name = name' ++ t) \/ name' = name ++ $".mounted").
  Proof.
    intros Nn Ns Nd Nu. unfold determine_mount_point. cbv zeta. rewrite strip_place by exact Ns.
    destruct (strip_name_nonempty [$"/all/"] name Nn Nd) as (k & Pk & ->).
    assert (contains $"://" (place folder (firstn k name)) = false) as ->.
    { destruct (contains $"://" (place folder (firstn k name))) eqn:C; [|reflexivity]. apply contains_spec in C as (a & b & C).
      exfalso. apply (Nu a (b ++ skipn k name)). rewrite !app_assoc, <- (app_assoc a). rewrite <- C.
      rewrite <- (firstn_skipn k name) at 1. destruct folder as [f|]; cbn [place]; [|reflexivity]. now rewrite <- app_assoc. }
    destruct (str_eqb_spec (place folder (firstn k name)) (place folder name)) as [E|N].
    - apply place_inj in E. rewrite E. rewrite splitext0_place by exact Ns.
      assert (place folder (name ++ $".mounted") = place folder name ++ $".mounted") as App.
      { destruct folder as [f|]; cbn [place]; [now rewrite <- app_assoc|reflexivity]. }
      assert (~ In slash (name ++ $".mounted")) as Nm.
      { intros I. apply in_app_iff in I as [I|I]; [exact (Ns I)|]. cbn in I. repeat (destruct I as [I|I]; [discriminate I|]). exact I. }
      assert (name ++ $".mounted" <> []) as Nz by (destruct name; discriminate).
      destruct (rsplit1 dotc name) as [[a e]|] eqn:R.
      + apply rsplit1_Some in R as [En _]. destruct (forallb (fun c => char_eqb c dotc) a) eqn:F.
        * rewrite str_eqb_refl. exists (name ++ $".mounted"). rewrite <- App. auto.
        * destruct (str_eqb_spec (place folder a) (place folder name)) as [Ea|Na].
          { apply place_inj in Ea. rewrite En in Ea. exfalso. apply (app_longer a (dotc :: e)); [discriminate|congruence]. }
          exists a. split; [reflexivity|]. split; [intros ->; exact (Nd e En)|]. split; [intros I; apply Ns; rewrite En; apply in_or_app; now left|].
          left. exists (dotc :: e). split; [discriminate|exact En].
      + rewrite str_eqb_refl. exists (name ++ $".mounted"). rewrite <- App. auto.
    - destruct (str_eqb_spec (place folder (firstn k name)) (place folder name)) as [E|_]; [contradiction|].
      exists (firstn k name). split; [reflexivity|]. split; [|split].
      + rewrite firstn_nil_iff. intros [?|?]; [lia|contradiction].
      + intros I. apply Ns. rewrite <- (firstn_skipn k name). apply in_or_app. now left.
      + left. exists (skipn k name). split; [|now rewrite firstn_skipn]. intros E. apply N. f_equal. rewrite <- (firstn_skipn k name) at 2. now rewrite E, app_nil_r.
  Qed.

  Lemma mount_point_url a b folder name : ~ In slash name -> folder ++ slash :: name = a ++ $"://" ++ b ->
    exists name', determine_mount_point translate categories (folder ++ slash :: name) = name' /\ (exists t, name = name' ++ t) /\
      (name <> [] -> (forall r, name <> "."%char :: r) -> name' <> []).
  Proof.
    intros Ns E. unfold determine_mount_point. cbv zeta. rewrite strip_path by exact Ns.
    set (result := fold_left (strip_step name) (compile_suffix_rules translate categories [$"/all/"]) name).
    assert (exists t, name = result ++ t) as (t & Et) by (eapply left_over_prefix; apply strip_left_over).
    assert (~ In slash result) as Nr by (intros I; apply Ns; rewrite Et; apply in_or_app; now left).
    assert (exists b', folder ++ [slash] = a ++ $"://" ++ b') as (b' & Ef).
    { assert (exists u v, a ++ $"://" ++ b = u ++ slash :: v /\ ~ In slash v /\ exists b', u ++ [slash] = a ++ $"://" ++ b') as (u & v & E2 & Nv & b' & Eb).
      { destruct (rsplit1 slash b) as [[b1 b2]|] eqn:R.
        - apply rsplit1_Some in R as [-> N2]. exists (a ++ $"://" ++ b1), b2. split; [now rewrite <- !app_assoc|]. split; [exact N2|].
          exists (b1 ++ [slash]). now rewrite <- !app_assoc.
        - apply rsplit1_None in R. exists (a ++ $":/"), b. split; [now rewrite <- app_assoc|]. split; [exact R|]. exists []. now rewrite <- app_assoc. }
      rewrite <- E in E2. assert (rsplit1 slash (folder ++ slash :: name) = Some (folder, name)) as R1 by now apply rsplit1_Some.
      assert (rsplit1 slash (folder ++ slash :: name) = Some (u, v)) as R2 by now apply rsplit1_Some.
      rewrite R1 in R2. injection R2 as <- <-. eauto. }
    assert (contains $"://" (folder ++ slash :: result) = true) as ->.
    { apply contains_spec. exists a, (b' ++ result). change (folder ++ slash :: result) with (folder ++ [slash] ++ result).
      rewrite app_assoc, Ef. now rewrite <- !app_assoc. }
    rewrite (proj2 (rsplit1_Some slash _ folder result)) by auto.
    assert (result <> folder ++ slash :: name) as N by (intros X; apply Nr; rewrite X; apply in_or_app; right; now left).
    destruct (str_eqb_spec result (folder ++ slash :: name)) as [X|_]; [contradiction|].
    destruct (str_eqb_spec result (folder ++ slash :: name)) as [X|_]; [contradiction|].
    exists result. split; [reflexivity|]. split; [now exists t|]. intros Nn Nd.
    destruct (strip_name_nonempty [$"/all/"] name Nn Nd) as (k & Pk & Er). fold result in Er. rewrite Er, firstn_nil_iff.
    intros [?|?]; [lia|contradiction].
  Qed.
  Lemma mount_point_hidden folder rest : ~ In slash rest -> ~ In dotc rest -> 
    (forall a b, place folder (dotc :: rest) <> a ++ $"://" ++ b) ->
    (forall r k, In r (compile_suffix_rules translate categories [$"/all/"]) -> ~ matches r (dotc :: rest) k) ->
    determine_mount_point translate categories (place folder (dotc :: rest)) = place folder (dotc :: rest ++ $".mounted").
  Proof.
    intros Ns Nd Nu Nm. unfold determine_mount_point. cbv zeta.
    assert (~ In slash (dotc :: rest)) as Ns' by (intros [E|I]; [discriminate E|exact (Ns I)]).
    rewrite strip_place by exact Ns'. rewrite strip_unchanged by (intros r k I _; now apply Nm).
    assert (contains $"://" (place folder (dotc :: rest)) = false) as ->.
    { destruct (contains $"://" (place folder (dotc :: rest))) eqn:C; [|reflexivity]. apply contains_spec in C as (a & b & C). exfalso. exact (Nu a b C). }
    rewrite str_eqb_refl. rewrite splitext0_place by exact Ns'.
    rewrite (proj2 (rsplit1_Some dotc (dotc :: rest) [] rest)) by auto. cbn [forallb]. rewrite str_eqb_refl.
    destruct folder as [f|]; cbn [place]; [now rewrite <- app_assoc|reflexivity].
  Qed.
End Mount.
