From Coq Require Import Ascii String.
From Verif Require Import PyBase PyStr Split_Model Split_Spec.

(** Digits from the least significant one on. *)
Definition lsb (b : nat) (l : list nat) : nat := fold_right (fun d a => a * b + d) 0 l.

Lemma number_rev b l : number b (rev l) = lsb b l.
Proof. unfold number, lsb. now rewrite <- fold_left_rev_right, rev_involutive. Qed.

Lemma format_loop_spec base : 1 < length base -> forall fuel i len (started : bool), i + len + (if started then 1 else 2) <= fuel ->
  exists l, format_loop fuel i base len started = Some (map (fun d => nth d base "?"%char) l) /\
    Forall (fun d => d < length base) l /\ lsb (length base) l = i /\
    (let m := if started then len else max 1 len in length l = m \/ m < length l /\ last l 0 <> 0).
Proof.
  intros B. set (b := length base) in *. induction fuel as [|f IH]; intros i len started L; [destruct started; lia|].
  cbn [format_loop]. destruct ((0 <? i) || (0 <? len) || negb started) eqn:C.
  - fold b. destruct (IH (i / b) (len - 1) true) as (l & E & F & V & W).
    { destruct i as [|i].
      - rewrite Nat.div_0_l by lia. destruct len; [destruct started; [discriminate C|lia]|destruct started; lia].
      - pose proof (Nat.div_lt (S i) b ltac:(lia) B). destruct started; lia. }
    exists (i mod b :: l). rewrite E. split; [reflexivity|]. split; [constructor; [apply Nat.mod_upper_bound; lia|exact F]|].
    split. { unfold lsb in *. cbn [fold_right]. rewrite V. pose proof (Nat.div_mod i b ltac:(lia)). lia. }
    cbn zeta in W |- *. cbn [length].
    assert (length l = len - 1 -> S (length l) = (if started then len else max 1 len) \/
              (if started then len else max 1 len) < S (length l) /\ last (i mod b :: l) 0 <> 0) as G.
    { intros Hl. destruct len as [|len]; [|left; destruct started; lia].
      cbn in Hl. destruct l; [|discriminate]. cbn [last length]. destruct started; [|left; reflexivity].
      right. split; [lia|]. cbn [orb negb] in C. rewrite orb_false_r, orb_false_r in C. apply Nat.ltb_lt in C.
      cbn in V. pose proof (Nat.div_mod i b ltac:(lia)). rewrite <- V in H. lia. }
    destruct W as [W|[W1 W2]]; [now apply G|].
    right. split; [destruct started; lia|]. destruct l; [cbn in W2; congruence|]. exact W2.
  - exists []. apply orb_false_iff in C as [C C3]. apply orb_false_iff in C as [C1 C2].
    apply Nat.ltb_ge in C1, C2. destruct started; [|discriminate C3]. split; [reflexivity|]. split; [constructor|].
    split; [cbn; lia|]. left. cbn. lia.
Qed.

Lemma hd_rev_last (l : list nat) : hd 0 (rev l) = last l 0.
Proof.
  induction l as [|x l IH] using rev_ind; [reflexivity|]. rewrite rev_unit, last_last. reflexivity.
Qed.

Lemma format_number_spec i base w : 1 < length base -> exists s, format_number i base w = Ok s /\ numeral base w i s.
Proof.
  intros B. unfold format_number. rewrite (proj2 (Nat.leb_gt _ _) B).
  destruct (format_loop_spec base B (i + w + 2) i w false) as (l & E & F & V & W); [lia|]. rewrite E.
  exists (rev (map (fun d => nth d base "?"%char) l)). split; [reflexivity|]. exists (rev l).
  split; [apply Forall_rev, F|]. split; [now rewrite number_rev|]. split; [now rewrite map_rev|].
  rewrite rev_length, hd_rev_last. exact W.
Qed.

(** ** Uniqueness *)
Lemma number_snoc b l d : number b (l ++ [d]) = number b l * b + d.
Proof. unfold number. now rewrite fold_left_app. Qed.

Lemma number_app b l1 l2 : number b (l1 ++ l2) = number b l1 * b ^ length l2 + number b l2.
Proof.
  induction l2 as [|d l2 IH] using rev_ind; [rewrite app_nil_r; cbn; lia|].
  rewrite app_assoc, !number_snoc, IH, app_length. cbn [length]. rewrite Nat.add_1_r. cbn [Nat.pow]. lia.
Qed.

Lemma number_bound b l : Forall (fun d => d < b) l -> number b l < b ^ length l \/ l = [].
Proof.
  induction l as [|d l IH] using rev_ind; intros F; [now right|]. left. apply Forall_app in F as [F1 F2]. inversion F2; subst.
  rewrite number_app, app_length. cbn [length]. rewrite Nat.add_1_r. cbn [Nat.pow]. unfold number at 2. cbn [fold_left].
  destruct (IH F1) as [H|H]; [nia|]. subst l. cbn. lia.
Qed.
Lemma number_lt b l : Forall (fun d => d < b) l -> number b l < b ^ length l.
Proof. intros F. destruct (number_bound b l F) as [H|H]; [exact H|]. subst. cbn. lia. Qed.

Lemma number_inj b l1 : forall l2, length l1 = length l2 -> Forall (fun d => d < b) l1 -> Forall (fun d => d < b) l2 ->
  number b l1 = number b l2 -> l1 = l2.
Proof.
  induction l1 as [|d l1 IH] using rev_ind; intros l2 L F1 F2 E.
  - now destruct l2.
  - destruct l2 as [|e l2 _] using rev_ind; [rewrite app_length in L; cbn in L; lia|].
    apply Forall_app in F1 as [F1 F1']. apply Forall_app in F2 as [F2 F2']. inversion F1'; inversion F2'; subst.
    rewrite !app_length in L. cbn in L. rewrite !number_snoc in E.
    assert (d = e /\ number b l1 = number b l2) as [-> X].
    { set (x := number b l1) in *. set (y := number b l2) in *. assert (x = y) by nia. split; nia. }
    f_equal. apply IH; auto. lia.
Qed.

Lemma number_ge b l : Forall (fun d => d < b) l -> hd 0 l <> 0 -> b ^ (length l - 1) <= number b l.
Proof.
  destruct l as [|d l]; intros F H; [cbn in H; congruence|]. cbn [hd length] in *. rewrite Nat.sub_succ, Nat.sub_0_r.
  change (d :: l) with ([d] ++ l). rewrite number_app. unfold number at 1. cbn [fold_left]. nia.
Qed.

Lemma numeral_unique base w i s1 s2 : 1 < length base -> numeral base w i s1 -> numeral base w i s2 -> s1 = s2.
Proof.
  intros B (l1 & F1 & V1 & -> & W1) (l2 & F2 & V2 & -> & W2). f_equal. set (b := length base) in *.
  apply (number_inj b); auto; [|congruence].
  assert (forall x y, Forall (fun d => d < b) x -> Forall (fun d => d < b) y -> number b x = number b y ->
            length x < length y -> hd 0 y = 0) as G.
  { intros x y Fx Fy E Lt. destruct (Nat.eq_dec (hd 0 y) 0) as [?|N]; [assumption|]. exfalso.
    pose proof (number_lt b x Fx). pose proof (number_ge b y Fy N).
    assert (b ^ length x <= b ^ (length y - 1)) by (apply Nat.pow_le_mono_r; lia). lia. }
  destruct (Nat.lt_trichotomy (length l1) (length l2)) as [Lt|[?|Lt]]; [|assumption|]; exfalso.
  - pose proof (G l1 l2 F1 F2 ltac:(congruence) Lt). destruct W1, W2; lia.
  - pose proof (G l2 l1 F2 F1 ltac:(congruence) Lt). destruct W1, W2; lia.
Qed.

Lemma numeral_inj base w i j s : NoDup base -> numeral base w i s -> numeral base w j s -> i = j.
Proof.
  intros ND (l1 & F1 & V1 & E1 & _) (l2 & F2 & V2 & E2 & _). rewrite <- V1, <- V2. f_equal.
  assert (map (fun d => nth d base "?"%char) l1 = map (fun d => nth d base "?"%char) l2) as E by congruence. clear - ND F1 F2 E.
  revert l2 F2 E. induction l1 as [|d l1 IH]; intros [|e l2] F2 E; try discriminate E; [reflexivity|].
  inversion F1; inversion F2; subst. cbn in E. injection E as E0 E1. f_equal; [|now apply IH].
  rewrite NoDup_nth in ND. apply (ND d e); eassumption.
Qed.

Lemma mem_In s l : mem s l = true <-> In s l.
Proof.
  unfold mem. rewrite existsb_exists. split; [intros (x & H & E); apply str_eqb_eq in E; now subst|].
  intros H. exists s. split; [exact H|apply str_eqb_refl].
Qed.

(** ** The sequence *)
Lemma sequence_loop_spec base w ext sl : 1 < length base -> NoDup base -> forall fuel i (used : list str),
  NoDup used -> incl used ext -> (forall s, In s used -> exists j, j < i /\ numeral base w j s) -> 0 < i ->
  length ext < fuel + length used ->
  exists l, sequence_loop fuel i ext base w sl = Ok l /\
    (forall k s, nth_error l k = Some s -> numeral base w (i + k) s) /\
    Forall (fun s => In s ext) l /\ (forall s, numeral base w (i + length l) s -> ~ In s ext).
Proof.
  intros B ND. induction fuel as [|f IH]; intros i used NDu I U Pos L.
  - exfalso. pose proof (NoDup_incl_length NDu I). lia.
  - cbn [sequence_loop]. destruct (format_number_spec i base w B) as (s & E & N). rewrite E. cbn [bind].
    destruct (mem s ext) eqn:M.
    + apply mem_In in M. destruct (IH (i + 1) (s :: used)) as (l & El & A1 & A2 & A3).
      * constructor; [|exact NDu]. intros H. apply U in H as (j & Lj & Nj). pose proof (numeral_inj base w i j s ND N Nj). lia.
      * intros x [<-|H]; auto.
      * intros x [<-|H]; [exists i; split; [lia|exact N]|]. apply U in H as (j & Lj & Nj). exists j. split; [lia|exact Nj].
      * lia.
      * cbn [length]. lia.
      * exists (s :: l). rewrite El. cbn [bind]. split; [reflexivity|]. split; [|split].
        -- intros [|k] x Ex; cbn in Ex; [injection Ex as <-; now rewrite Nat.add_0_r|]. apply A1 in Ex. now rewrite <- Nat.add_assoc in Ex.
        -- now constructor.
        -- intros x Nx. apply A3. cbn [length] in Nx. now rewrite <- Nat.add_assoc.
    + rewrite (proj2 (Nat.ltb_lt 0 i) Pos). cbn [orb]. exists []. split; [reflexivity|].
      split; [intros [|k] x Ex; discriminate|]. split; [constructor|]. intros x Nx H. rewrite Nat.add_0_r in Nx.
      rewrite (numeral_unique base w i x s B Nx N) in H. apply mem_In in H. congruence.
Qed.

Lemma numeral_0_length base w s : 1 < length base -> numeral base w 0 s -> length s = max 1 w.
Proof.
  intros B (l & F & V & -> & W). rewrite map_length. destruct W as [W|[W1 W2]]; [exact W|].
  pose proof (number_ge (length base) l F W2). assert (0 < length base ^ (length l - 1)) by (apply Nat.neq_0_lt_0, Nat.pow_nonzero; lia). lia.
Qed.

Lemma check_for_sequence_spec ext base w : 1 < length base -> NoDup base ->
  exists l, check_for_sequence ext base w = Ok l /\ counted base w (fun s => In s ext) l.
Proof.
  intros B ND. unfold check_for_sequence. destruct (format_number_spec 0 base w B) as (z & Ez & Nz). rewrite Ez. cbn [bind].
  rewrite Nat.add_succ_r, Nat.add_1_r. remember (S (length ext)) as F eqn:EF. cbn [sequence_loop]. rewrite Ez. cbn [bind].
  destruct (mem z ext) eqn:M.
  - apply mem_In in M. destruct (sequence_loop_spec base w ext (length z) B ND F 1 [z]) as (l & El & A1 & A2 & A3).
    + repeat constructor. intros [].
    + intros x [<-|[]]. exact M.
    + intros x [<-|[]]. exists 0. auto.
    + lia.
    + cbn. lia.
    + change (0 + 1) with 1. rewrite El. cbn [bind]. exists (z :: l). split; [reflexivity|]. exists 0. split; [lia|]. split; [split; [intros _; now exists z|reflexivity]|]. split; [|split].
      * intros [|k] x Ex; cbn in Ex; [injection Ex as <-; exact Nz|]. apply A1 in Ex. exact Ex.
      * now constructor.
      * intros x Nx. apply A3. exact Nx.
  - rewrite Nat.eqb_refl. cbn [orb negb Nat.ltb Nat.leb].
    destruct (sequence_loop_spec base w ext (length z) B ND F 1 []) as (l & El & A1 & A2 & A3).
    + constructor.
    + intros x [].
    + intros x [].
    + lia.
    + cbn. lia.
    + change (0 + 1) with 1. exists l. split; [exact El|]. exists 1. split; [lia|]. split; [|split; [exact A1|]; split; [exact A2|exact A3]].
      split; [discriminate|]. intros (s & Ns & H). rewrite (numeral_unique base w 0 s z B Ns Nz) in H. apply mem_In in H. congruence.
Qed.

Lemma counted_NoDup base w (ext : str -> Prop) l : NoDup base -> counted base w ext l -> NoDup l.
Proof.
  intros ND (st & _ & _ & N & _). rewrite NoDup_nth_error. intros i j Li E.
  destruct (nth_error l i) as [s|] eqn:Ei; [|apply nth_error_None in Ei; lia]. symmetry in E.
  pose proof (numeral_inj base w _ _ s ND (N i s Ei) (N j s E)). lia.
Qed.

Lemma counted_unique base w (ext : str -> Prop) l1 l2 : 1 < length base -> counted base w ext l1 -> counted base w ext l2 -> l1 = l2.
Proof.
  intros B (st1 & L1 & S1 & N1 & F1 & E1) (st2 & L2 & S2 & N2 & F2 & E2).
  assert (st1 = st2) as Est by (assert (st1 = 0 <-> st2 = 0) by (rewrite S1, S2; reflexivity); lia). subst st2.
  assert (forall x y : list str, (forall k s, nth_error x k = Some s -> numeral base w (st1 + k) s) -> Forall ext x ->
            (forall s, numeral base w (st1 + length y) s -> ~ ext s) -> length x <= length y) as G.
  { intros x y Nx Fx Ey. destruct (Nat.le_gt_cases (length x) (length y)) as [?|Gt]; [assumption|]. exfalso.
    destruct (nth_error x (length y)) as [s|] eqn:Es; [|apply nth_error_None in Es; lia].
    apply (Ey s); [now apply Nx|]. rewrite Forall_forall in Fx. apply Fx. now apply nth_error_In in Es. }
  pose proof (G l1 l2 N1 F1 E2). pose proof (G l2 l1 N2 F2 E1).
  assert (length l1 = length l2) as L by lia. clear - B N1 N2 L.
  revert l2 st1 N1 N2 L. induction l1 as [|x l1 IH]; intros [|y l2] st N1 N2 L; try discriminate L; [reflexivity|]. f_equal.
  - apply (numeral_unique base w (st + 0)); [exact B|now apply (N1 0)|now apply (N2 0)].
  - apply (IH l2 (S st)).
    + intros k s E. rewrite Nat.add_succ_comm. now apply (N1 (S k)).
    + intros k s E. rewrite Nat.add_succ_comm. now apply (N2 (S k)).
    + now injection L.
Qed.

Lemma counted_ext base w (P Q : str -> Prop) l : (forall s, P s <-> Q s) -> counted base w P l -> counted base w Q l.
Proof.
  intros PQ (st & L & S & N & F & E). exists st. split; [exact L|]. split.
  { rewrite S. split; intros (s & A & X); exists s; (split; [exact A|now apply PQ]). }
  split; [exact N|]. split; [eapply Forall_impl; [|exact F]; intros s; apply PQ|].
  intros s Ns H. apply (E s Ns). now apply PQ.
Qed.

(** ** The formats *)
Lemma alphabets : Forall (fun f => 1 < length (snd f) /\ NoDup (snd f)) formats.
Proof.
  assert (forall l : str, (fix nodup (l : str) := match l with [] => true | x :: r => negb (existsb (char_eqb x) r) && nodup r end) l = true -> NoDup l) as G.
  { induction l as [|x l IH]; intros H; [constructor|]. apply andb_true_iff in H as [H1 H2]. constructor; [|now apply IH].
    intros Hin. apply negb_true_iff in H1. assert (existsb (char_eqb x) l = true); [|congruence]. apply existsb_exists. exists x.
    split; [exact Hin|]. now destruct (char_eqb_spec x x). }
  repeat apply Forall_cons; try apply Forall_nil; (split; [cbn; lia|apply G; vm_compute; reflexivity]).
Qed.

(** The first of the longest ones. *)
Lemma best_sequence_spec ext w fs : Forall (fun f => 1 < length (snd f) /\ NoDup (snd f)) fs -> forall best,
  exists r, best_sequence fs ext w best = Ok r /\ length (snd best) <= length (snd r) /\
    (r = best \/ exists base, In (fst r, base) fs /\ counted base w (fun s => In s ext) (snd r) /\ check_for_sequence ext base w = Ok (snd r) /\ snd r <> []) /\
    (forall f base l, In (f, base) fs -> check_for_sequence ext base w = Ok l -> length l <= length (snd r)).
Proof.
  induction fs as [|[f base] fs IH]; intros F best; cbn [best_sequence].
  - exists best. split; [reflexivity|]. split; [lia|]. split; [now left|]. intros ? ? ? [].
  - inversion F as [|? ? [B ND] F']; subst. cbn [snd] in B, ND.
    destruct (check_for_sequence_spec ext base w B ND) as (l & El & C). rewrite El. cbn [bind].
    destruct (IH F' (if length (snd best) <? length l then (f, l) else best)) as (r & Er & L & R & Mx).
    exists r. split; [exact Er|]. destruct (Nat.ltb_spec (length (snd best)) (length l)) as [Lt|Ge]; cbn [snd] in L.
    + split; [lia|]. split.
      * destruct R as [->|(b0 & I & X)].
        -- right. exists base. cbn [fst snd]. split; [now left|]. split; [exact C|]. split; [exact El|]. intros ->. cbn in Lt. lia.
        -- right. exists b0. split; [now right|exact X].
      * intros f0 b0 l0 [E|I] E0; [injection E as <- <-; rewrite El in E0; injection E0 as <-; lia|]. now apply (Mx f0 b0).
    + split; [lia|]. split.
      * destruct R as [->|(b0 & I & X)]; [now left|]. right. exists b0. split; [now right|exact X].
      * intros f0 b0 l0 [E|I] E0; [injection E as <- <-; rewrite El in E0; injection E0 as <-; lia|]. now apply (Mx f0 b0).
Qed.

(** ** Alphabets *)
Lemma alpha_In c : between "a" "z" c = true <-> In c lowercase.
Proof. destruct c as [[] [] [] [] [] [] [] []]; vm_compute; intuition discriminate. Qed.
Lemma digit_In c : between "0" "9" c = true <-> In c decimal.
Proof. destruct c as [[] [] [] [] [] [] [] []]; vm_compute; intuition discriminate. Qed.
Lemma hex_In c : between "0" "9" c || between "a" "f" c = true <-> In c hexadecimal.
Proof. destruct c as [[] [] [] [] [] [] [] []]; vm_compute; intuition discriminate. Qed.

Lemma all_In (p : ascii -> bool) alphabet s : (forall c, p c = true <-> In c alphabet) ->
  nonempty s && forallb p s = true <-> s <> [] /\ incl s alphabet.
Proof.
  intros H. rewrite andb_true_iff, forallb_forall. split; intros [A B].
  - split; [now destruct s|]. intros c Hc. apply H. now apply B.
  - split; [destruct s; [congruence|reflexivity]|]. intros c Hc. apply H. now apply B.
Qed.

Lemma matching_spec a b : has_matching_alphabets a b = true <-> same_kind a b.
Proof.
  unfold has_matching_alphabets. rewrite !orb_true_iff, !andb_true_iff.
  unfold is_latin_alpha, is_latin_digit, is_latin_hex_alpha.
  rewrite !(all_In _ lowercase) by apply alpha_In. rewrite !(all_In _ decimal) by apply digit_In.
  rewrite !(all_In _ hexadecimal) by apply hex_In. unfold same_kind. split.
  - intros [[[[A1 A2] [B1 B2]]|[[A1 A2] [B1 B2]]]|[[A1 A2] [B1 B2]]]; (split; [exact A1|split; [exact B1|]]).
    + exists $"a", lowercase. split; [now left|auto].
    + exists $"0", decimal. split; [right; now left|auto].
    + exists $"x", hexadecimal. split; [right; right; now left|auto].
  - intros (A1 & B1 & f & alphabet & Hin & A2 & B2). destruct Hin as [E|[E|[E|[]]]]; assert (alphabet = snd (f, alphabet)) as Ea by reflexivity;
      rewrite <- E in Ea; cbn [snd] in Ea; rewrite Ea in A2, B2; clear E Ea.
    + left. left. auto.
    + left. right. auto.
    + right. auto.
Qed.

(** The suffixes found in the folder. *)
Definition found basename (candidates : list str) :=
  map (skipn (length basename + 1)) (filter (starts_with (basename ++ [dotc])) candidates).

Lemma found_In basename candidates e : In e (found basename candidates) <-> In (basename ++ dotc :: e) candidates.
Proof.
  unfold found. rewrite in_map_iff. split.
  - intros (n & <- & H). apply filter_In in H as [H S]. apply starts_with_spec in S as (t & ->).
    replace (length basename + 1) with (length (basename ++ [dotc])) by (rewrite app_length; reflexivity).
    rewrite skipn_app, skipn_all, Nat.sub_diag. cbn [app skipn]. now rewrite <- app_assoc in H.
  - intros H. exists (basename ++ dotc :: e). split.
    + replace (basename ++ dotc :: e) with ((basename ++ [dotc]) ++ e) by now rewrite <- app_assoc.
      replace (length basename + 1) with (length (basename ++ [dotc])) by (rewrite app_length; reflexivity).
      now rewrite skipn_app, skipn_all, Nat.sub_diag.
    + apply filter_In. split; [exact H|]. apply starts_with_spec. exists e. now rewrite <- app_assoc.
Qed.

Lemma siblings_In basename own candidates e :
  In e (filter (fun x => has_matching_alphabets x own) (found basename candidates)) <-> sibling candidates basename own e.
Proof. rewrite filter_In, found_In, matching_spec. reflexivity. Qed.
