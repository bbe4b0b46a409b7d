From Coq Require Import Ascii String Sorting.Sorted.
From Verif Require Import PyBase PyStr PyInt Offsets_Model Offsets_Spec.
Local Open Scope Z_scope.

(** ** Slices of concatenations *)
Lemma slice_mid {A} (pre x y : list A) o n : len pre = o -> len x = n -> zslice (pre ++ x ++ y) o n = x.
Proof.
  intros E F. pose proof (len_nonneg x). rewrite zslice_app_r by lia. replace (o - len pre) with 0 by lia.
  rewrite zslice_app_l by lia. apply zslice_full. lia.
Qed.
Lemma slice_end {A} (pre x : list A) o n : len pre = o -> len x <= n -> zslice (pre ++ x) o n = x.
Proof. intros E F. rewrite zslice_app_r by lia. replace (o - len pre) with 0 by lia. now apply zslice_full. Qed.

(** ** Numerals *)
Lemma number_snoc b s c : number b (s ++ [c]) = b * number b s + (Z.of_nat (nat_of_ascii c) - 48).
Proof. unfold number. now rewrite fold_left_app. Qed.
Lemma nat_of_digit d : (d < 10)%nat -> nat_of_ascii (digit d) = (48 + d)%nat.
Proof. intros H. unfold digit. apply nat_ascii_embedding. lia. Qed.
Lemma numeral_number b s n : (b <= 10)%nat -> numeral b s n -> number (Z.of_nat b) s = n.
Proof.
  intros Hb. induction 1 as [|s n d H IH Hd]; [reflexivity|]. rewrite number_snoc, IH, nat_of_digit by lia. lia.
Qed.
Lemma numeral_nonneg b s n : numeral b s n -> 0 <= n.
Proof. induction 1; lia. Qed.
Lemma is_digit_iff c : is_digit c = true <-> exists d, (d < 10)%nat /\ c = digit d.
Proof.
  unfold is_digit. rewrite andb_true_iff, !Nat.leb_le. split.
  - intros [H1 H2]. exists (nat_of_ascii c - 48)%nat. split; [lia|]. unfold digit. replace (48 + (nat_of_ascii c - 48))%nat with (nat_of_ascii c) by lia.
    now rewrite ascii_nat_embedding.
  - intros (d & Hd & ->). rewrite nat_of_digit by assumption. lia.
Qed.
Lemma numeral_digits s n : numeral 10 s n -> Forall (fun c => is_digit c = true) s.
Proof.
  induction 1 as [|s n d H IH Hd]; [constructor|]. apply Forall_app. split; [assumption|]. constructor; [|constructor]. apply is_digit_iff. eauto.
Qed.
Lemma numeral_octal s n : numeral 8 s n -> Forall (fun c => is_octal c = true) s.
Proof.
  induction 1 as [|s n d H IH Hd]; [constructor|]. apply Forall_app. split; [assumption|]. constructor; [|constructor].
  unfold is_octal. rewrite nat_of_digit by lia. rewrite andb_true_iff, !Nat.leb_le. lia.
Qed.

(** ** The size field *)
Lemma drop_space_id s : (match s with c :: _ => is_space c = false | [] => True end) -> drop_space s = s.
Proof. destruct s as [|c s]; [reflexivity|]. cbn. now intros ->. Qed.
Lemma drop_spaces k s : drop_space (repeat " "%char k ++ s) = drop_space s.
Proof. induction k as [|k IH]; [reflexivity|]. cbn [repeat app drop_space]. exact IH. Qed.
Lemma octal_no_space c : is_octal c = true -> is_space c = false /\ c <> NUL.
Proof.
  unfold is_octal. rewrite andb_true_iff, !Nat.leb_le. intros [H1 H2].
  assert (D : exists d, (d < 8)%nat /\ c = digit d).
  { exists (nat_of_ascii c - 48)%nat. split; [lia|]. unfold digit. replace (48 + (nat_of_ascii c - 48))%nat with (nat_of_ascii c) by lia.
    now rewrite ascii_nat_embedding. }
  destruct D as (d & Hd & ->). do 8 (destruct d as [|d]; [split; [reflexivity|discriminate]|]). lia.
Qed.
Lemma int8_numeral digits spaces n : numeral 8 digits n -> digits <> [] -> int8 (digits ++ repeat " "%char spaces) = Some n.
Proof.
  intros H Hne. pose proof (numeral_octal _ _ H) as O. unfold int8.
  assert (E : rev (drop_space (rev (drop_space (digits ++ repeat " "%char spaces)))) = digits).
  { rewrite (drop_space_id (digits ++ _)).
    2: { destruct digits as [|c s]; [congruence|]. cbn [app]. apply Forall_inv in O. now apply octal_no_space. }
    rewrite rev_app_distr. replace (rev (repeat " "%char spaces)) with (repeat " "%char spaces).
    2: { clear. induction spaces as [|k IH]; [reflexivity|]. cbn [repeat rev]. rewrite <- IH. clear. induction k as [|k IH]; [reflexivity|]. cbn [repeat app]. now rewrite IH. }
    rewrite drop_spaces, drop_space_id; [apply rev_involutive|].
    destruct (rev digits) as [|c s] eqn:E; [exact I|]. assert (I : In c digits) by (apply in_rev; rewrite E; now left).
    rewrite Forall_forall in O. now apply octal_no_space, O. }
  rewrite E. destruct digits as [|c s]; [congruence|].
  assert (B : forallb is_octal (c :: s) = true) by (apply forallb_forall; now apply Forall_forall). rewrite B.
  f_equal. apply (numeral_number 8); [lia|assumption].
Qed.
Lemma strip_tail s k : (forall r, s <> NUL :: r) -> (forall r, s <> r ++ [NUL]) -> strip NUL (s ++ zeros k) = s.
Proof.
  intros H1 H2. unfold strip, rstrip, zeros. assert (L : lstrip NUL (s ++ repeat "000"%char k) = s ++ repeat "000"%char k \/ s = []).
  { destruct s as [|c s]; [now right|left]. cbn [app]. apply lstrip_id. intros ->. now apply (H1 s). }
  destruct L as [->| ->].
  - rewrite rev_app_distr. replace (rev (repeat "000"%char k)) with (repeat "000"%char k).
    2: { clear. induction k as [|k IH]; [reflexivity|]. cbn [repeat rev]. rewrite <- IH. clear. induction k as [|k IH]; [reflexivity|]. cbn [repeat app]. now rewrite IH. }
    assert (E : lstrip NUL (repeat "000"%char k ++ rev s) = rev s).
    { induction k as [|k IH]; [|cbn [repeat app]; rewrite lstrip_sep; exact IH]. cbn [repeat app]. destruct (rev s) as [|c t] eqn:E; [reflexivity|].
      apply lstrip_id. intros ->. apply (H2 (rev t)). rewrite <- (rev_involutive s), E. reflexivity. }
    rewrite E. apply rev_involutive.
  - cbn [app]. assert (E : lstrip NUL (repeat "000"%char k) = []) by (apply lstrip_nil_iff, Forall_forall; intros x Hx; now apply repeat_spec in Hx). now rewrite E.
Qed.
Definition raw_size (head : str) : str := strip NUL (zslice head 124 12).
Lemma size_field_raw head n : size_field head n ->
  (raw_size head = [] /\ n = 0) \/ (raw_size head <> [] /\ int8 (raw_size head) = Some n).
Proof.
  intros (before & digits & spaces & k & after & -> & Hb & Hl & Hn & Hs). unfold raw_size.
  replace (digits ++ repeat " "%char spaces ++ zeros k ++ after) with ((digits ++ repeat " "%char spaces ++ zeros k) ++ after) by now rewrite <- !app_assoc.
  rewrite slice_mid; [| unfold len; lia | unfold len, zeros; rewrite !app_length, !repeat_length; lia].
  rewrite app_assoc. destruct digits as [|c s] eqn:E.
  - left. rewrite (Hs eq_refl). cbn [repeat app]. inversion Hn as [Q|s' n' d' H' Hd' Q]; [|now destruct s'].
    split; [|reflexivity]. apply (strip_tail [] k); [discriminate|]. now destruct r.
  - right. rewrite <- E in *. assert (Hd : digits <> []) by congruence. pose proof (numeral_octal _ _ Hn) as O. rewrite Forall_forall in O.
    rewrite strip_tail.
    + split; [rewrite E; discriminate|]. now apply int8_numeral.
    + intros r F. rewrite E in F. cbn [app] in F. injection F as F _. assert (I : In c digits) by (rewrite E; now left).
      apply O in I. apply octal_no_space in I. now destruct I.
    + intros r F. destruct spaces as [|sp].
      * cbn [repeat] in F. rewrite app_nil_r in F. assert (I : In NUL digits) by (rewrite F; apply in_or_app; right; now left).
        apply O in I. apply octal_no_space in I. now destruct I.
      * assert (G : repeat " "%char (S sp) = repeat " "%char sp ++ [" "%char]) by (clear; induction sp as [|k IH]; [reflexivity|]; cbn [repeat app] in *; now rewrite <- IH).
        rewrite G, app_assoc in F. apply app_inj_tail in F as [_ F]. discriminate F.
Qed.

(** ** Pax records *)
Lemma digits_of_run s c r : Forall (fun c => is_digit c = true) s -> is_digit c = false -> digits_of (s ++ c :: r) = (s, c :: r).
Proof.
  induction s as [|x s IH]; intros H Hc; cbn [app digits_of]; [now rewrite Hc|]. apply Forall_cons_iff in H as [Hx Hs]. rewrite Hx.
  now rewrite (IH Hs Hc).
Qed.
Lemma digits_of_spec s d r : digits_of s = (d, r) -> s = d ++ r /\ Forall (fun c => is_digit c = true) d /\ (match r with c :: _ => is_digit c = false | [] => True end).
Proof.
  revert d r. induction s as [|x s IH]; intros d r; cbn [digits_of].
  - intros [= <- <-]. auto.
  - destruct (is_digit x) eqn:E.
    + destruct (digits_of s) as [d' r'] eqn:F. intros [= <- <-]. destruct (IH d' r' eq_refl) as (-> & H1 & H2). cbn [app]. auto.
    + intros [= <- <-]. cbn [app]. auto.
Qed.

Definition size_or (pax : Z) (s : option Z) : Z := match s with Some n => n | None => pax end.

(** Announcements from the front. *)
Inductive announces_front : option Z -> list (str * str) -> option Z -> Prop :=
| af_nil s : announces_front s [] s
| af_other s k v l s' : k <> $"size" -> announces_front s l s' -> announces_front s ((k, v) :: l) s'
| af_size s v n l s' : (1 <= length v <= 20)%nat -> numeral 10 v n -> announces_front (Some n) l s' -> announces_front s (($"size", v) :: l) s'.
Lemma af_app s l l' m s' : announces_front s l m -> announces_front m l' s' -> announces_front s (l ++ l') s'.
Proof. induction 1; intros H'; cbn [app]; [assumption|apply af_other; auto|eapply af_size; eauto]. Qed.
Lemma announces_af l s : announces l s -> announces_front None l s.
Proof.
  induction 1 as [|l k v s H IH Hk|l v s n H IH Hl Hn]; [constructor| |].
  - eapply af_app; [eassumption|]. constructor; [assumption|constructor].
  - eapply af_app; [eassumption|]. econstructor; [eassumption|eassumption|constructor].
Qed.

Lemma space_not_digit : is_digit " "%char = false. Proof. reflexivity. Qed.
Lemma newline_not_digit : is_digit newline = false. Proof. reflexivity. Qed.
Lemma digit_not_nul c : is_digit c = true -> char_eqb c NUL = false.
Proof. intros H. apply is_digit_iff in H as (d & Hd & ->). do 10 (destruct d as [|d]; [reflexivity|]). lia. Qed.

Lemma one_to_20_iff d : one_to_20 d = true <-> (1 <= length d <= 20)%nat.
Proof. unfold one_to_20. rewrite andb_true_iff, !Nat.leb_le. lia. Qed.

Lemma match_size_other k v r : k <> [] -> ~ In "="%char k -> k <> $"size" -> match_size ($" " ++ k ++ $"=" ++ v ++ r) = None.
Proof.
  intros H1 H2 H3. unfold match_size. destruct (starts_with _ _) eqn:E; [|reflexivity]. exfalso. apply starts_with_spec in E as (t & E).
  cbn in E. injection E as E. apply H3.
  assert (G : forall (a b : str), ~ In "="%char a -> ~ In "="%char b -> forall x y, a ++ "="%char :: x = b ++ "="%char :: y -> a = b).
  { clear. induction a as [|c a IH]; intros b Ha Hb x y E; destruct b as [|d b]; [reflexivity|..]; cbn [app] in E.
    - injection E as <- _. exfalso. apply Hb. now left.
    - injection E as -> _. exfalso. apply Ha. now left.
    - injection E as <- E. f_equal. eapply IH; [| |eassumption]; intros I; [apply Ha|apply Hb]; now right. }
  apply (G k $"size" H2) with (x := v ++ r) (y := t); [|exact E]. cbn. intuition congruence.
Qed.
Lemma match_size_digits v : (1 <= length v <= 20)%nat -> Forall (fun c => is_digit c = true) v ->
  match_size ($" " ++ $"size" ++ $"=" ++ v ++ ["010"%char]) = Some v.
Proof.
  intros Hl Hv. unfold match_size. change ($" " ++ $"size" ++ $"=" ++ v ++ ["010"%char]) with ($" size=" ++ (v ++ ["010"%char])).
  rewrite starts_with_app. change (skipn 6 ($" size=" ++ v ++ ["010"%char])) with (v ++ ["010"%char]).
  rewrite digits_of_run by (assumption || reflexivity). now rewrite (proj2 (one_to_20_iff v) Hl).
Qed.

Lemma pax_loop_spec recs rendered k : Forall2 (fun '(key, value) r => pax_record key value r) recs rendered -> forall s s' fuel pax,
  announces_front s recs s' -> pax = size_or (-1) s -> (length (concat rendered ++ zeros k) < fuel)%nat ->
  pax_loop fuel (concat rendered ++ zeros k) pax = size_or (-1) s'.
Proof.
  induction 1 as [|[key value] r recs rendered Hr Hrs IH]; intros s s' fuel pax Ha -> Hf.
  - inversion Ha; subst. destruct fuel as [|fuel]; [cbn in Hf; lia|]. cbn [concat app]. destruct k as [|k]; reflexivity.
  - destruct fuel as [|fuel]; [lia|]. destruct Hr as (L & Er & HL & HlL & Hkey & Heq).
    pose proof (numeral_digits _ _ HL) as DL. assert (NL : number 10 L = len r) by now apply (numeral_number 10).
    cbn [concat]. rewrite <- app_assoc.
    assert (Q : exists c t, r ++ concat rendered ++ zeros k = c :: t /\ is_digit c = true).
    { rewrite Er. destruct L as [|c L]; [cbn in HlL; lia|]. exists c. eexists. split; [reflexivity|]. now apply Forall_inv in DL. }
    destruct Q as (c & t & Ec & Dc).
    assert (M : match_length (r ++ concat rendered ++ zeros k) = Some L).
    { unfold match_length. rewrite Er at 1. rewrite <- !app_assoc. change ($" " ++ ?x) with (" "%char :: x).
      rewrite digits_of_run by (assumption || reflexivity). now rewrite (proj2 (one_to_20_iff L) HlL). }
    assert (Lr : 5 <= len r).
    { rewrite Er. unfold len. rewrite !app_length. cbn [length list_ascii_of_string]. destruct key; [congruence|]. cbn [length]. lia. }
    cbn [pax_loop]. rewrite Ec at 1. rewrite (digit_not_nul c Dc), M, NL.
    assert (C : (len r <? 5) || (len (r ++ concat rendered ++ zeros k) <? len r) = false).
    { apply orb_false_iff. split; apply Z.ltb_ge; [lia|]. rewrite len_app. pose proof (len_nonneg (concat rendered ++ zeros k)). lia. }
    rewrite C.
    assert (T : ztake (len r) (r ++ concat rendered ++ zeros k) = r) by (rewrite ztake_app_le by lia; apply ztake_all; lia).
    assert (S : zskip (len r) (r ++ concat rendered ++ zeros k) = concat rendered ++ zeros k)
      by (rewrite zskip_app_ge by lia; rewrite Z.sub_diag; reflexivity).
    rewrite T, S.
    assert (K : skipn (length L) r = $" " ++ key ++ $"=" ++ value ++ ["010"%char]).
    { rewrite Er. rewrite skipn_app, skipn_all, Nat.sub_diag. reflexivity. }
    rewrite K.
    assert (F : (length (concat rendered ++ zeros k) < fuel)%nat).
    { cbn [concat] in Hf. rewrite <- app_assoc, app_length in Hf. unfold len in Lr. lia. }
    inversion Ha as [|s0 k0 v0 l0 s0' Hk Hrest|s0 v0 n l0 s0' Hv Hn Hrest]; subst.
    + rewrite match_size_other by assumption. now apply (IH s).
    + rewrite match_size_digits; [|assumption|eapply numeral_digits; eassumption].
      replace (number 10 value) with n by (symmetry; now apply (numeral_number 10)). now apply (IH (Some n)).
Qed.
Lemma get_pax_size_spec data size : pax_contents data size -> get_pax_size data = size_or (-1) size.
Proof.
  intros (recs & rendered & k & H1 & H2 & ->). unfold get_pax_size. apply (pax_loop_spec recs rendered k H1 None); [now apply announces_af|reflexivity|lia].
Qed.

(** ** The walk *)
Lemma is_zero_zeros n : is_zero (zeros n) = true.
Proof. unfold is_zero, zeros. induction n; [reflexivity|assumption]. Qed.
Lemma is_zero_false s : (exists c, In c s /\ c <> "000"%char) -> is_zero s = false.
Proof.
  intros (c & I & H). unfold is_zero. apply not_true_iff_false. rewrite forallb_forall. intros F. specialize (F c I). apply Ascii.eqb_eq in F. now apply H.
Qed.
Lemma len_zeros n : len (zeros n) = Z.of_nat n.
Proof. unfold len, zeros. now rewrite repeat_length. Qed.
Lemma zeros_app a b : zeros (a + b) = zeros a ++ zeros b.
Proof. unfold zeros. apply repeat_app. Qed.
Lemma ceil_div_blocks size blocks : 512 * (blocks - 1) < size <= 512 * blocks -> ceil_div size 512 = blocks.
Proof.
  intros H. unfold ceil_div. enough (E : size / - 512 = - blocks) by lia.
  symmetry. apply (Z.div_unique_neg _ _ _ (size - 512 * blocks)); lia.
Qed.

Fixpoint points (pos : Z) (first : bool) (es : list entry) : list (Z * ascii) :=
  match es with
  | [] => []
  | e :: es =>
    let h := pos + 512 * Z.of_nat (e_zeros e) in
    (if first then [(h, flag e)] else []) ++ points (h + len (e_head e ++ e_data e)) (char_eqb (flag e) "0") es
  end.

Section Walk.
  Variable file : str.
  Variable ignore : bool.
  Notation find := (find_offsets file ignore).

  Lemma read_mid pre x y n k : file = pre ++ x ++ y -> len pre = n * 512 -> len x = k * 512 -> read_blocks file n k = x.
  Proof. intros -> H1 H2. unfold read_blocks. now apply slice_mid. Qed.
  Lemma read_end pre x n k : file = pre ++ x -> len pre = n * 512 -> len x <= k * 512 -> read_blocks file n k = x.
  Proof. intros -> H1 H2. unfold read_blocks. now apply slice_end. Qed.

  (** What happens at a header. *)
  Definition at_header fuel (n skip pax : Z) (block : str) : list (Z * ascii) * option exn :=
    let type_flag := nth 156 block NUL in
    let '(out, skip) := if 0 <? skip then ([], skip - 1) else ([((n - 1) * 512, type_flag)], skip) in
    match (match raw_size block with [] => Some 0 | _ => int8 (raw_size block) end) with
    | None => (out, Some ValueError)
    | Some size =>
      let size := if (size =? 0) && (0 <? pax) then pax else size in
      let data_block_count := ceil_div size 512 in
      let pax := if existsb (char_eqb type_flag) ["x"; "g"; "X"]%char then get_pax_size (read_blocks file n data_block_count) else -1 in
      let skip := if char_eqb type_flag "0" then skip else skip + 1 in
      let '(l, e) := find fuel (n + data_block_count) skip pax in (out ++ l, e)
    end.

  Lemma find_0 fuel n skip pax pre block rest : file = pre ++ block ++ rest -> len pre = n * 512 -> length block = 512%nat ->
    is_zero block = false -> find (S fuel) n skip pax = at_header fuel (n + 1) skip pax block.
  Proof.
    intros E H1 H2 H3. cbn [find_offsets]. rewrite (read_mid pre block rest n 1) by (assumption || unfold len; lia). rewrite H3.
    replace (len block <? 512) with false by (symmetry; apply Z.ltb_ge; unfold len; lia). reflexivity.
  Qed.
  Lemma find_1 fuel n skip pax pre block rest : file = pre ++ zeros 512 ++ block ++ rest -> len pre = n * 512 -> length block = 512%nat ->
    is_zero block = false -> find (S fuel) n skip pax = at_header fuel (n + 2) skip pax block.
  Proof.
    intros E H1 H2 H3. cbn [find_offsets]. rewrite (read_mid pre (zeros 512) (block ++ rest) n 1) by (assumption || rewrite ?len_zeros; lia).
    rewrite is_zero_zeros. replace (len (zeros 512) <? 512) with false by (symmetry; rewrite len_zeros; reflexivity).
    rewrite (read_mid (pre ++ zeros 512) block rest (n + 1) 1); [|now rewrite <- app_assoc|rewrite len_app, len_zeros; lia|unfold len; lia]. rewrite H3.
    replace (len block <? 512) with false by (symmetry; apply Z.ltb_ge; unfold len; lia). reflexivity.
  Qed.
  Lemma find_2 fuel n skip pax pre rest : file = pre ++ zeros 1024 ++ rest -> len pre = n * 512 ->
    find (S fuel) n skip pax = if ignore then find fuel (n + 2) skip pax else ([], None).
  Proof.
    intros E H1. cbn [find_offsets]. rewrite (read_mid pre (zeros 512) (zeros 512 ++ rest) n 1);
      [|rewrite E; change 1024%nat with (512 + 512)%nat; now rewrite zeros_app, <- app_assoc|assumption|rewrite len_zeros; lia].
    rewrite is_zero_zeros. replace (len (zeros 512) <? 512) with false by (symmetry; rewrite len_zeros; reflexivity).
    rewrite (read_mid (pre ++ zeros 512) (zeros 512) rest (n + 1) 1);
      [|rewrite E; change 1024%nat with (512 + 512)%nat; now rewrite zeros_app, <- !app_assoc|rewrite len_app, len_zeros; lia|rewrite len_zeros; lia].
    now rewrite is_zero_zeros.
  Qed.
  Lemma find_short fuel n skip pax pre rest : file = pre ++ rest -> len pre = n * 512 -> (length rest < 512)%nat -> find (S fuel) n skip pax = ([], None).
  Proof.
    intros E H1 H2. cbn [find_offsets]. rewrite (read_end pre rest n 1) by (assumption || unfold len; lia).
    replace (len rest <? 512) with true; [reflexivity|]. symmetry. apply Z.ltb_lt. unfold len. lia.
  Qed.
  Lemma find_1_short fuel n skip pax pre rest : file = pre ++ zeros 512 ++ rest -> len pre = n * 512 -> (length rest < 512)%nat ->
    find (S (S fuel)) n skip pax = ([], None).
  Proof.
    intros E H1 H2. remember (S fuel) as f. cbn [find_offsets]. rewrite (read_mid pre (zeros 512) rest n 1) by (assumption || rewrite ?len_zeros; lia).
    rewrite is_zero_zeros. replace (len (zeros 512) <? 512) with false by (symmetry; rewrite len_zeros; reflexivity).
    rewrite (read_end (pre ++ zeros 512) rest (n + 1) 1); [|now rewrite <- app_assoc|rewrite len_app, len_zeros; lia|unfold len; lia].
    destruct (is_zero rest).
    - destruct ignore eqn:I; [|reflexivity]. subst f. cbn [find_offsets]. unfold read_blocks. rewrite zslice_nil_ge; [reflexivity|].
      rewrite E, !len_app, len_zeros. unfold len at 2. lia.
    - replace (len rest <? 512) with true; [reflexivity|]. symmetry. apply Z.ltb_lt. unfold len. lia.
  Qed.

  Lemma find_zeros k : forall n skip pax pre rest fuel, file = pre ++ zeros (1024 * k) ++ rest -> len pre = n * 512 ->
    ignore = true \/ k = 0%nat -> find (k + fuel) n skip pax = find fuel (n + 2 * Z.of_nat k) skip pax.
  Proof.
    induction k as [|k IH]; intros n skip pax pre rest fuel E H H2; [cbn [Nat.add]; f_equal; lia|].
    destruct H2 as [H2|]; [|lia]. cbn [Nat.add].
    assert (E1 : zeros (1024 * S k) = zeros 1024 ++ zeros (1024 * k)) by (rewrite <- zeros_app; f_equal; lia).
    rewrite E1, <- app_assoc in E.
    rewrite (find_2 _ n skip pax pre _ E H).
    assert (IF : forall (x y : list (Z * ascii) * option exn), (if ignore then x else y) = x) by (intros; now rewrite H2). rewrite IF.
    rewrite (IH (n + 2) skip pax (pre ++ zeros 1024) rest); [|now rewrite <- app_assoc|rewrite len_app, len_zeros; lia|now left]. f_equal. lia.
  Qed.

  Lemma find_tail tail fuel n skip pax pre : ends_archive ignore tail -> file = pre ++ tail -> len pre = n * 512 -> (length tail + 2 <= fuel)%nat ->
    find fuel n skip pax = ([], None).
  Proof.
    intros (k & rest & -> & H) E Hp Hf. rewrite app_length in Hf. unfold zeros in Hf. rewrite repeat_length in Hf.
    destruct ignore eqn:I.
    - destruct H as [H|[]]; [|discriminate]. pose proof (Nat.div_mod_eq k 2) as D. set (q := (k / 2)%nat) in *.
      pose proof (Nat.mod_upper_bound k 2 ltac:(lia)) as M. rewrite D in E.
      replace (512 * (2 * q + k mod 2))%nat with (1024 * q + 512 * (k mod 2))%nat in E by lia. rewrite zeros_app, <- app_assoc in E.
      replace fuel with (q + (fuel - q))%nat by lia. rewrite <- I.
      rewrite (find_zeros q n skip pax pre _ _ E Hp (or_introl I)).
      destruct (fuel - q)%nat as [|[|f]] eqn:F; try lia.
      destruct (k mod 2)%nat as [|[|z]]; [| |lia].
      + apply (find_short (S f) _ _ _ (pre ++ zeros (1024 * q)) rest); [now rewrite <- app_assoc, E|rewrite len_app, len_zeros; lia|assumption].
      + apply (find_1_short f _ _ _ (pre ++ zeros (1024 * q)) rest); [now rewrite <- app_assoc, E|rewrite len_app, len_zeros; lia|assumption].
    - destruct fuel as [|[|f]]; [lia|lia|]. destruct (Nat.le_gt_cases 2 k) as [K|K].
      + replace (512 * k)%nat with (1024 + 512 * (k - 2))%nat in E by lia. rewrite zeros_app, <- app_assoc in E.
        rewrite <- I. rewrite (find_2 _ n skip pax pre _ E Hp). now rewrite I.
      + rewrite <- I. assert (R : (length rest < 512)%nat) by (destruct H as [H|[_ H]]; [exact H|lia]). destruct k as [|[|k]]; [| |lia].
        * now apply (find_short (S f) _ _ _ pre rest).
        * now apply (find_1_short f _ _ _ pre rest).
  Qed.

  Lemma in_flags c : existsb (char_eqb c) ["x"; "g"; "X"]%char = if in_dec ascii_dec c ["x"; "g"; "X"]%char then true else false.
  Proof.
    destruct (in_dec _ _ _) as [i|i].
    - apply existsb_exists. exists c. split; [assumption|]. unfold char_eqb. apply Ascii.eqb_refl.
    - apply not_true_iff_false. intros H. apply existsb_exists in H as (x & Hx & H). destruct (char_eqb_spec c x); congruence.
  Qed.

  Lemma walk tail : ends_archive ignore tail -> forall es a pre fuel n skip pax,
    laid_out a es -> (ignore = false -> Forall (fun e => (e_zeros e <= 1)%nat) es) ->
    file = pre ++ archive es tail -> len pre = n * 512 -> pax = size_or (-1) a -> 0 <= skip <= 1 -> (length (archive es tail) + 2 <= fuel)%nat ->
    find fuel n skip pax = (points (n * 512) (skip =? 0) es, None).
  Proof.
    intros Ht. induction es as [|e es IH]; intros a pre fuel n skip pax Hl Hz E Hp -> Hs Hf.
    - apply (find_tail tail fuel n skip _ pre); assumption.
    - inversion Hl as [|a0 e0 es0 stored size a' Hh Hnz Hsf Hsize (blocks & Hd & Hs0 & Hb) Hpax Hrest]; subst a0 e0 es0.
      assert (EA : archive (e :: es) tail = zeros (512 * e_zeros e) ++ e_head e ++ e_data e ++ archive es tail)
        by (unfold archive, bytes_of; cbn [map concat]; now rewrite <- !app_assoc).
      rewrite EA in E, Hf. rewrite !app_length in Hf. unfold zeros in Hf at 1. rewrite repeat_length in Hf.
      pose proof (is_zero_false _ Hnz) as Hnz'. set (z := Z.of_nat (e_zeros e)).
      assert (R : forall f, (length (archive es tail) + 2 <= f)%nat ->
        at_header f (n + z + 1) skip (size_or (-1) a) (e_head e) = (points (n * 512) (skip =? 0) (e :: es), None)).
      { intros f Hf2. unfold at_header. change (nth 156 (e_head e) NUL) with (flag e).
        assert (S : (match raw_size (e_head e) with [] => Some 0 | _ => int8 (raw_size (e_head e)) end) = Some stored).
        { destruct (size_field_raw _ _ Hsf) as [[-> ->]|[H1 H2]]; [reflexivity|]. destruct (raw_size (e_head e)); [congruence|exact H2]. }
        assert (SZ : (if (stored =? 0) && (0 <? size_or (-1) a) then size_or (-1) a else stored) = size).
        { destruct Hsize as [[H1 H2]|[H1 H2]].
          - now replace (stored =? 0) with false by (symmetry; now apply Z.eqb_neq).
          - subst stored. cbn [Z.eqb andb]. destruct a as [m|]; cbn [size_or]; [|now subst].
            subst m. destruct (0 <? size) eqn:G; [reflexivity|]. apply Z.ltb_ge in G. lia. }
        assert (PX : (if existsb (char_eqb (flag e)) ["x"; "g"; "X"]%char then get_pax_size (e_data e) else -1) = size_or (-1) a').
        { rewrite in_flags. destruct (in_dec _ _ _); [now apply get_pax_size_spec|now subst]. }
        assert (RD : read_blocks file (n + z + 1) (Z.of_nat blocks) = e_data e).
        { apply (read_mid (pre ++ zeros (512 * e_zeros e) ++ e_head e) (e_data e) (archive es tail)).
          - now rewrite E, <- !app_assoc.
          - rewrite !len_app, len_zeros. unfold len, z in *. lia.
          - unfold len. lia. }
        pose proof (ceil_div_blocks size (Z.of_nat blocks) Hb) as CD.
        assert (N : forall sk, 0 <= sk <= 1 -> find f (n + z + 1 + Z.of_nat blocks) sk (size_or (-1) a')
                  = (points ((n + z + 1 + Z.of_nat blocks) * 512) (sk =? 0) es, None)).
        { intros sk Hsk. apply (IH a' (pre ++ zeros (512 * e_zeros e) ++ e_head e ++ e_data e)); try assumption; try reflexivity.
          - intros I. specialize (Hz I). now apply Forall_cons_iff in Hz.
          - now rewrite E, <- !app_assoc.
          - rewrite !len_app, len_zeros. unfold len, z in *. lia. }
        rewrite S. cbn [points].
        assert (PE : n * 512 + 512 * Z.of_nat (e_zeros e) + len (e_head e ++ e_data e) = (n + z + 1 + Z.of_nat blocks) * 512)
          by (rewrite len_app; unfold len, z in *; lia).
        rewrite PE. replace (n * 512 + 512 * Z.of_nat (e_zeros e)) with ((n + z) * 512) by (unfold z; lia).
        replace ((n + z + 1 - 1) * 512) with ((n + z) * 512) by (unfold z; lia).
        destruct (0 <? skip) eqn:SK.
        + apply Z.ltb_lt in SK. replace skip with 1 in * by lia. cbn [Z.eqb app]. rewrite SZ, CD, RD, PX.
          destruct (char_eqb (flag e) "0"); rewrite N by lia; reflexivity.
        + apply Z.ltb_ge in SK. replace skip with 0 in * by lia. cbn [Z.eqb app]. rewrite SZ, CD, RD, PX.
          destruct (char_eqb (flag e) "0"); rewrite N by lia; reflexivity. }
      assert (Q : exists q r, e_zeros e = (2 * q + r)%nat /\ (r <= 1)%nat /\ (ignore = true \/ q = 0%nat)).
      { destruct ignore eqn:I.
        - exists (e_zeros e / 2)%nat, (e_zeros e mod 2)%nat. split; [apply Nat.div_mod_eq|]. split; [|now left].
          pose proof (Nat.mod_upper_bound (e_zeros e) 2 ltac:(lia)). lia.
        - exists 0%nat, (e_zeros e). split; [lia|]. split; [|now right]. specialize (Hz eq_refl). now apply Forall_cons_iff in Hz. }
      destruct Q as (q & r & Eq & Hr & Hq). rewrite Eq in E.
      replace (512 * (2 * q + r))%nat with (1024 * q + 512 * r)%nat in E by lia. rewrite zeros_app, <- app_assoc in E.
      replace fuel with (q + (fuel - q))%nat by lia.
      rewrite (find_zeros q n skip _ pre _ _ E Hp Hq).
      destruct (fuel - q)%nat as [|f] eqn:F; [lia|].
      assert (Hp2 : len (pre ++ zeros (1024 * q)) = (n + 2 * Z.of_nat q) * 512) by (rewrite len_app, len_zeros; lia).
      destruct r as [|[|r]]; [| |lia].
      + rewrite (find_0 f _ skip _ (pre ++ zeros (1024 * q)) (e_head e) (e_data e ++ archive es tail)); try assumption.
        * replace (n + 2 * Z.of_nat q + 1) with (n + z + 1) by (unfold z; lia). apply R. lia.
        * now rewrite E, <- !app_assoc.
      + rewrite (find_1 f _ skip _ (pre ++ zeros (1024 * q)) (e_head e) (e_data e ++ archive es tail)); try assumption.
        * replace (n + 2 * Z.of_nat q + 2) with (n + z + 1) by (unfold z; lia). apply R. lia.
        * now rewrite E, <- !app_assoc.
  Qed.
End Walk.

Lemma find_points es tail ignore : laid_out None es -> ends_archive ignore tail -> (ignore = false -> Forall (fun e => (e_zeros e <= 1)%nat) es) ->
  find_tar_file_offsets (archive es tail) ignore = (points 0 true es, None).
Proof.
  intros H1 H2 H3. unfold find_tar_file_offsets. apply (walk (archive es tail) ignore tail H2 es None []); (assumption || reflexivity || lia).
Qed.

(** ** What the points are *)
Lemma points_In x : forall es pos first, In x (points pos first es) <->
  exists before e after, es = before ++ e :: after /\ x = (pos + header_at before e, flag e) /\
    (before = [] /\ first = true \/ exists b p, before = b ++ [p] /\ flag p = "0"%char).
Proof.
  induction es as [|e es IH]; intros pos first; cbn [points].
  - split; [intros []|]. intros (before & e & after & E & _). now destruct before.
  - rewrite in_app_iff, IH. split.
    + intros [H|(before & e' & after & -> & -> & H)].
      * destruct first; [|destruct H]. destruct H as [<-|[]]. exists [], e, es. split; [reflexivity|]. split; [|left; auto]. reflexivity.
      * exists (e :: before), e', after. split; [reflexivity|]. split.
        { f_equal. unfold header_at, bytes_of. cbn [map concat]. rewrite !len_app, len_zeros. lia. }
        right. destruct H as [[-> H]|(b & p & -> & H)].
        -- exists [], e. split; [reflexivity|]. now apply Ascii.eqb_eq in H.
        -- exists (e :: b), p. auto.
    + intros (before & e' & after & E & -> & H). destruct before as [|e0 before]; cbn [app] in E; injection E as <- ->.
      * left. destruct H as [[_ ->]|(b & p & Eb & _)]; [|now destruct b]. left. reflexivity.
      * right. exists before, e', after. split; [reflexivity|]. split.
        { f_equal. unfold header_at, bytes_of. cbn [map concat]. rewrite !len_app, len_zeros. lia. }
        destruct H as [[E _]|(b & p & Eb & Hp)]; [discriminate|]. destruct b as [|b0 b]; cbn [app] in Eb; injection Eb as -> Eb.
        -- left. split; [assumption|]. rewrite Hp. reflexivity.
        -- right. eauto.
Qed.
Lemma points_sorted es : forall a pos first, laid_out a es ->
  StronglySorted (fun x y => fst x < fst y) (points pos first es) /\ Forall (fun x => pos <= fst x) (points pos first es).
Proof.
  induction es as [|e es IH]; intros a pos first H; cbn [points]; [split; constructor|].
  inversion H as [|a0 e0 es0 stored size a' Hh Hnz Hsf Hsize _ Hpax Hrest]; subst.
  destruct (IH _ (pos + 512 * Z.of_nat (e_zeros e) + len (e_head e ++ e_data e)) (char_eqb (flag e) "0") Hrest) as [S F].
  assert (L : 512 <= len (e_head e ++ e_data e)) by (rewrite len_app; unfold len; lia).
  split.
  - destruct first; [|exact S]. cbn [app]. constructor; [exact S|]. eapply Forall_impl; [|exact F]. cbn beta. intros x Hx. cbn [fst]. lia.
  - apply Forall_app. split; [destruct first; constructor; [cbn [fst]; lia|constructor]|]. eapply Forall_impl; [|exact F]. cbn beta. intros x Hx. lia.
Qed.

(** ** Detection *)
Lemma look_sound late l : forall i k, look_for_folder late i k l = true -> exists o, In (o, "D"%char) l.
Proof.
  induction l as [|[o t] l IH]; intros i k H; [discriminate|]. cbn [look_for_folder] in H.
  destruct (char_eqb_spec t "D") as [->|].
  - exists o. now left.
  - destruct (_ || _); [discriminate|]. apply IH in H as (o' & H). exists o'. now right.
Qed.
Lemma look_complete late l1 o l2 : (forall i, late i = false) -> forall i k, len l1 < k -> look_for_folder late i k (l1 ++ (o, "D"%char) :: l2) = true.
Proof.
  intros Hl. induction l1 as [|[o' t'] l1 IH]; intros i k H; [reflexivity|]. cbn [app look_for_folder]. rewrite len_cons in H.
  destruct (char_eqb t' "D"); [reflexivity|]. rewrite Hl. pose proof (len_nonneg l1).
  replace (k - 1 <=? 0) with false by (symmetry; apply Z.leb_gt; lia). cbn [orb]. apply IH. lia.
Qed.
Lemma points_length es : forall pos first, (length (points pos first es) <= length es)%nat.
Proof. induction es as [|e es IH]; intros pos first; cbn [points]; [cbn; lia|]. rewrite app_length. specialize (IH (pos + 512 * Z.of_nat (e_zeros e) + len (e_head e ++ e_data e)) (char_eqb (flag e) "0")). destruct first; cbn [length]; lia. Qed.
Lemma points_app es es' : forall pos first, exists pos' first', points pos first (es ++ es') = points pos first es ++ points pos' first' es' /\
  (es = [] -> first' = first) /\ (forall b p, es = b ++ [p] -> first' = char_eqb (flag p) "0").
Proof.
  induction es as [|e es IH]; intros pos first.
  - exists pos, first. split; [reflexivity|]. split; [auto|]. intros b p E. now destruct b.
  - cbn [app points]. destruct (IH (pos + 512 * Z.of_nat (e_zeros e) + len (e_head e ++ e_data e)) (char_eqb (flag e) "0")) as (pos' & f' & E & H1 & H2).
    exists pos', f'. rewrite E, app_assoc. split; [reflexivity|]. split; [discriminate|]. intros b p Eb. destruct b as [|b0 b]; cbn [app] in Eb; injection Eb as -> Eb.
    + now apply H1.
    + now apply (H2 b).
Qed.

(** The first header of a file, whatever follows. *)
Lemma first_yield file ignore : (512 <= length file)%nat -> nth 156 file NUL <> NUL ->
  exists l, fst (find_tar_file_offsets file ignore) = (0, nth 156 file NUL) :: l.
Proof.
  intros H1 H2. unfold find_tar_file_offsets. destruct (Nat.eq_dec (length file) 0); [lia|].
  assert (E : file = [] ++ firstn 512 file ++ skipn 512 file) by (cbn [app]; now rewrite firstn_skipn).
  assert (N : nth 156 (firstn 512 file) NUL = nth 156 file NUL).
  { rewrite <- (firstn_skipn 512 file) at 2. rewrite app_nth1; [reflexivity|]. rewrite firstn_length. lia. }
  rewrite (find_0 file ignore (S (length file)) 0 0 (-1) [] (firstn 512 file) (skipn 512 file) E); [|reflexivity|rewrite firstn_length; lia|].
  - unfold at_header. rewrite N. cbn [Z.ltb Z.compare]. change ((0 + 1 - 1) * 512) with 0.
    destruct (match raw_size _ with [] => _ | _ => _ end); [|eexists; reflexivity].
    destruct (find_offsets _ _ _ _ _ _) as [l e]. eexists. reflexivity.
  - apply is_zero_false. exists (nth 156 file NUL). split; [|exact H2]. rewrite <- N. apply nth_In. rewrite firstn_length. lia.
Qed.

(** ** Names *)
Lemma field_starts w s b x : field w s b -> ~ In NUL x -> starts_with (x ++ [NUL]) b = true -> x = s.
Proof.
  intros (_ & Hs & [->|(r & ->)]) Hx H; apply starts_with_spec in H as (t & H); rewrite <- app_assoc in H; cbn [app] in H.
  - exfalso. apply Hs. rewrite H. apply in_or_app. right. now left.
  - apply (f_equal (split1 NUL)) in H. rewrite (proj2 (split1_Some NUL _ s r)), (proj2 (split1_Some NUL _ x t)) in H by (split; auto). congruence.
Qed.
Lemma field_starts_own w s b : field w s b -> (length s < w)%nat -> starts_with (s ++ [NUL]) b = true.
Proof.
  intros (Hl & _ & [->|(r & ->)]) H; [lia|]. apply starts_with_spec. exists r. now rewrite <- app_assoc.
Qed.
Lemma header_name file off head name prefix : 0 <= off -> zslice file off 512 = head -> header_fields head name prefix ->
  field 100 name (zslice file off 100) /\ field 155 prefix (zslice file (off + 345) 155).
Proof.
  intros H0 Hh (n & m & p & t & Eh & Hm & Fn & Fp & Hl). subst head.
  assert (A : zslice (zslice file off 512) 0 100 = zslice file off 100) by (rewrite zslice_zslice by lia; f_equal; lia).
  assert (B : zslice (zslice file off 512) 345 155 = zslice file (off + 345) 155) by (rewrite zslice_zslice by lia; reflexivity).
  rewrite Eh in A, B. destruct Fn as (Ln & Fn), Fp as (Lp & Fp).
  rewrite <- A, <- B. change (n ++ m ++ p ++ t) with ([] ++ n ++ m ++ p ++ t) at 1. rewrite slice_mid by (unfold len; cbn; lia).
  rewrite (app_assoc n m). rewrite slice_mid by (rewrite ?len_app; unfold len; lia). split; split; auto.
Qed.
Lemma long_nonul : ~ In NUL $"././@LongLink".
Proof. cbn. intuition discriminate. Qed.
Lemma get_tar_prefix_spec file off name prefix b : member_at file off name prefix b ->
  exists p, get_tar_prefix file off = Some p /\ field 155 prefix p.
Proof.
  intros [head name' prefix' H0 Hh Hf Hn|head name' prefix' long_head p n blocks H0 Hl Hlf Hs Hn Hb Hh Hf]; unfold get_tar_prefix, extract_prefix.
  - destruct (header_name file off head name' prefix' H0 Hh Hf) as [Fn Fp].
    destruct (starts_with _ _) eqn:E; [|eauto]. apply (field_starts _ _ _ _ Fn long_nonul) in E. congruence.
  - destruct (header_name file off long_head _ _ H0 Hl Hlf) as [Fn _].
    rewrite (field_starts_own _ _ _ Fn) by (cbn; lia).
    assert (R : strip NUL (zslice file (off + 124) 12) = raw_size long_head).
    { unfold raw_size. rewrite <- Hl. rewrite zslice_zslice by lia. reflexivity. }
    rewrite R. destruct (size_field_raw _ _ Hs) as [[_ ->]|[_ ->]]; [lia|].
    assert (D : (n + 512 - 1) / 512 = blocks) by (symmetry; apply (Z.div_unique_pos _ _ _ (n + 512 - 1 - 512 * blocks)); lia).
    rewrite D. replace (blocks * 512) with (512 * blocks) by lia. eexists. split; [reflexivity|].
    apply (header_name file (off + 512 + 512 * blocks) head name' prefix'); [lia|assumption|assumption].
Qed.
Lemma fix_name_other file off name prefix b first rest : member_at file off name prefix b -> ~ In slash first -> ~ In NUL first -> first <> prefix ->
  fix_name file off (first ++ slash :: rest) = first ++ slash :: rest.
Proof.
  intros H Hs Hn Hf. unfold fix_name. rewrite (proj2 (split1_Some slash _ first rest)) by auto.
  destruct (get_tar_prefix_spec _ _ _ _ _ H) as (p & -> & Fp). destruct p as [|c p]; [reflexivity|].
  destruct (starts_with _ _) eqn:E; [|reflexivity]. apply (field_starts _ _ _ _ Fp Hn) in E. congruence.
Qed.
Lemma fix_name_own file off name prefix b rest : member_at file off name prefix b -> ~ In slash prefix -> (length prefix < 155)%nat ->
  fix_name file off (prefix ++ slash :: rest) = rest.
Proof.
  intros H Hs Hl. unfold fix_name. rewrite (proj2 (split1_Some slash _ prefix rest)) by auto.
  destruct (get_tar_prefix_spec _ _ _ _ _ H) as (p & -> & Fp). rewrite (field_starts_own _ _ _ Fp Hl). destruct p; [|reflexivity].
  destruct Fp as [Fp _]. cbn in Fp. lia.
Qed.
