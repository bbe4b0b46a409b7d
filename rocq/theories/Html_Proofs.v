(** Proofs about files embedded in HTML documents. *)
From Coq Require Import Ascii String.
From Verif Require Import PyBase PyStr PyDict Html_Model Html_Spec.
Local Open Scope Z_scope.

Lemma text_eqb_spec a : forall b, reflect (a = b) (text_eqb a b).
Proof.
  induction a as [|x a IH]; intros [|y b]; cbn [text_eqb]; try (constructor; congruence).
  destruct (Z.eqb_spec x y) as [->|N]; cbn [andb]; [|constructor; congruence]. destruct (IH b) as [->|N]; constructor; congruence.
Qed.

Lemma text_start_spec p : forall s, text_start p s = true <-> exists r, s = p ++ r.
Proof.
  induction p as [|x p IH]; intros s; cbn [text_start app].
  - split; [intros _; eauto|reflexivity].
  - destruct s as [|y s]; [split; [discriminate|intros (r & [=])]|]. rewrite andb_true_iff, IH. split.
    + intros [E (r & ->)]. apply Z.eqb_eq in E as ->. eauto.
    + intros (r & [= -> ->]). split; [apply Z.eqb_refl|eauto].
Qed.

Lemma span_all (f : Z -> bool) a : forall s, Forall (fun c => f c = true) a -> match s with [] => True | c :: _ => f c = false end -> span f (a ++ s) = (a, s).
Proof.
  induction a as [|x a IH]; intros s F H; cbn [app span].
  - destruct s as [|c s]; [reflexivity|]. cbn [span]. now rewrite H.
  - apply Forall_cons_iff in F as [E F]. rewrite E, (IH s F H). reflexivity.
Qed.

Lemma blank_space c : blank c -> is_space c = true.
Proof. unfold blank. intros [-> | [-> | [-> | [-> | -> ]]]]; reflexivity. Qed.
Lemma blanks_space s : Forall blank s -> Forall (fun c => is_space c = true) s.
Proof. apply Forall_impl. exact blank_space. Qed.
Lemma name_char_ok c : name_char c -> is_name_char c = true /\ is_space c = false /\ c <> 61.
Proof. unfold name_char, lower_letter, upper_letter, is_name_char, is_letter, is_space. intros H. split; [|split]; lia. Qed.
Lemma letter_ok c : lower_letter c \/ upper_letter c -> is_letter c = true.
Proof. unfold lower_letter, upper_letter, is_letter. lia. Qed.
Lemma space_not_name c : blank c -> is_name_char c = false.
Proof. unfold blank. intros [-> | [-> | [-> | [-> | -> ]]]]; reflexivity. Qed.

Lemma name_chars n : name_ok n -> Forall (fun c => is_name_char c = true) n /\ n <> [] /\ match n with c :: _ => is_letter c = true /\ is_space c = false /\ c <> 61 | [] => False end.
Proof.
  intros (c & r & -> & L & F). assert (name_char c) as Nc by (unfold name_char; tauto). destruct (name_char_ok c Nc) as (K1 & K2 & K3).
  split; [|split; [discriminate|split; [now apply letter_ok|auto]]]. constructor; [exact K1|]. revert F. apply Forall_impl. intros x Hx. apply name_char_ok, Hx.
Qed.

(** What may follow a name or a value: no name character, and not "=" behind white space. *)
Definition follows (s : text) : Prop :=
  match s with [] => True | c :: _ => is_name_char c = false end /\
  match snd (span is_space s) with 61 :: _ => False | _ => True end.

Lemma match_name_ok n s : name_ok n -> match s with [] => True | c :: _ => is_name_char c = false end -> match_name (n ++ s) = Some (n, s).
Proof.
  intros N H. destruct (name_chars n N) as (F & Ne & C). destruct n as [|c n]; [congruence|]. destruct C as (C & _). cbn [app match_name].
  rewrite C. f_equal. apply (span_all is_name_char (c :: n) s F H).
Qed.

Lemma span_space_ok a s : Forall blank a -> match s with [] => True | c :: _ => is_space c = false end -> span is_space (a ++ s) = (a, s).
Proof. intros F H. apply span_all; [now apply blanks_space|exact H]. Qed.

Lemma match_value_quoted q v s : (q = 34 \/ q = 39) -> ~ In q v -> match_value (q :: v ++ q :: s) = (q :: v ++ [q], s).
Proof.
  intros Q N. unfold match_value. assert (is_quote q = true) as -> by (destruct Q as [-> | ->]; reflexivity).
  rewrite (span_all (fun c => negb (c =? q)) v (q :: s)); [reflexivity| |].
  - apply Forall_forall. intros x I. destruct (Z.eqb_spec x q) as [->|]; [contradiction|reflexivity].
  - now rewrite Z.eqb_refl.
Qed.

Definition value_length (a : attribute) : option (Z * Z) :=
  match a_value a with
  | None => None
  | Some (s1, s2, _, v) => Some (len (a_space a) + len (a_name a) + len s1 + 1 + len s2, len v + 2)
  end.

Lemma match_attribute_ok a s position : attribute_ok a -> follows s ->
  match_attribute (write_attribute a ++ s) position =
  Some (a_name a, option_map (fun '(o, n) => (position + o, position + o + n)) (value_length a), position + len (write_attribute a), s).
Proof.
  intros (S0 & S1 & N & V) (F1 & F2). destruct (name_chars _ N) as (NF & NN & NC). unfold match_attribute, write_attribute, value_length.
  set (rest := match a_value a with None => [] | Some (s1, s2, Some q, v) => s1 ++ [61] ++ s2 ++ [q] ++ v ++ [q] | Some (s1, s2, None, v) => s1 ++ [61] ++ s2 ++ v end).
  rewrite <- !app_assoc. rewrite (span_space_ok (a_space a)); [|exact S1|]; [|destruct (a_name a) as [|c n]; [congruence|]; cbn [app]; tauto].
  destruct (a_space a) as [|sp sps] eqn:Es; [congruence|]. rewrite <- Es in *.
  assert (match_name (a_name a ++ rest ++ s) = Some (a_name a, rest ++ s)) as ->.
  { apply match_name_ok; [exact N|]. unfold rest. destruct (a_value a) as [[[[s1 s2] [q|]] v]|]; cbn [app]; [|destruct V as (_ & _ & q & [=] & _)|exact F1].
    destruct V as (B1 & _). destruct s1 as [|c s1]; [reflexivity|]. apply Forall_cons_iff in B1 as [B1 _]. cbn [app]. now apply space_not_name. }
  unfold rest in *. clear rest. destruct (a_value a) as [[[[s1 s2] qo] v]|].
  - destruct V as (B1 & B2 & q & -> & Q & Nq). rewrite <- !app_assoc. rewrite (span_space_ok s1 ([61] ++ _)) by (exact B1 || reflexivity). cbn [app].
    assert (is_space q = false) as Sq by (destruct Q as [-> | ->]; reflexivity).
    rewrite (span_space_ok s2) by (exact B2 || exact Sq). cbn [app]. rewrite (match_value_quoted q v s Q Nq).
    cbn [option_map]. rewrite !len_app, !len_cons, !len_app, !len_cons, !len_app, !len_cons. change (len []) with 0.
    do 3 f_equal; [f_equal; f_equal; f_equal; lia|lia].
  - cbn [app option_map]. destruct (span is_space s) as [sps0 s0] eqn:E0. cbn [snd] in F2. rewrite app_nil_r, len_app, Z.add_assoc.
    destruct s0 as [|c0 s0]; [reflexivity|]. destruct (Z.eq_dec c0 61) as [->|N0]; [contradiction|].
    destruct c0 as [|c0|c0]; try reflexivity. repeat (destruct c0 as [c0|c0|]; try reflexivity). congruence.
Qed.

Lemma follows_attribute a s : attribute_ok a -> follows (write_attribute a ++ s).
Proof.
  intros (S0 & S1 & N & _). destruct (name_chars _ N) as (_ & NN & NC). unfold write_attribute. rewrite <- !app_assoc. split.
  - destruct (a_space a) as [|c r]; [congruence|]. apply Forall_cons_iff in S1 as [B _]. cbn [app]. now apply space_not_name.
  - rewrite (span_space_ok (a_space a)); [|exact S1|]; destruct (a_name a) as [|c n]; try congruence; cbn [app snd]; [|tauto].
    destruct NC as (_ & _ & N61). destruct c as [|c|c]; try exact I. repeat (destruct c as [c|c|]; try exact I). congruence.
Qed.

Lemma follows_tail t : tail_ok t -> follows t /\ forall p, match_attribute t p = None.
Proof.
  intros (s & c & r & -> & B & C). assert (is_space c = false) as Sc by (destruct C as [-> | ->]; reflexivity).
  assert (span is_space (s ++ c :: r) = (s, c :: r)) as E by (apply span_space_ok; auto). split; [split|].
  - destruct s as [|x s]; [destruct C as [-> | ->]; reflexivity|]. apply Forall_cons_iff in B as [B _]. now apply space_not_name.
  - rewrite E. cbn [snd]. destruct C as [-> | ->]; exact I.
  - intros p. unfold match_attribute. rewrite E. destruct s; [reflexivity|]. destruct C as [-> | ->]; reflexivity.
Qed.

Lemma follows_attributes attrs t : Forall attribute_ok attrs -> tail_ok t -> follows (concat (map write_attribute attrs) ++ t).
Proof.
  intros F T. destruct F as [|a attrs A F]; cbn [map concat app]; [now apply follows_tail|]. rewrite <- app_assoc. now apply follows_attribute.
Qed.

Lemma find_loop_ok t attribute attrs : Forall attribute_ok attrs -> tail_ok t -> forall fuel pre, (List.length attrs < fuel)%nat ->
  (forall a, In a attrs -> a_name a <> attribute) ->
  find_loop fuel (pre ++ concat (map write_attribute attrs) ++ t) attribute (concat (map write_attribute attrs) ++ t) (len pre) = Ok (0, 0).
Proof.
  intros F T. induction F as [|a attrs A F IH]; intros fuel pre Fu Nin; (destruct fuel as [|fuel]; [cbn in Fu; lia|]); cbn [find_loop map concat app].
  - now rewrite (proj2 (follows_tail t T)).
  - rewrite <- app_assoc. rewrite (match_attribute_ok a _ _ A (follows_attributes attrs t F T)).
    destruct (text_eqb_spec (a_name a) attribute) as [E|_]; [destruct (Nin a (or_introl eq_refl) E)|].
    specialize (IH fuel (pre ++ write_attribute a)). rewrite <- app_assoc, len_app in IH. apply IH; [cbn in Fu; lia|intros; apply Nin; now right].
Qed.

Lemma find_loop_found t attribute before a after v s1 s2 q : Forall attribute_ok (before ++ a :: after) -> tail_ok t ->
  (forall b, In b before -> a_name b <> attribute) -> a_name a = attribute -> a_value a = Some (s1, s2, Some q, v) ->
  forall fuel pre, (List.length before < fuel)%nat ->
  let data := pre ++ concat (map write_attribute (before ++ a :: after)) ++ t in
  exists b, find_loop fuel data attribute (concat (map write_attribute (before ++ a :: after)) ++ t) (len pre) = Ok (b, b + len v) /\
    b = len pre + len (concat (map write_attribute before)) + len (a_space a) + len (a_name a) + len s1 + 1 + len s2 + 1.
Proof.
  intros F T Nb Na Va. cbv zeta. induction before as [|x before IH]; intros fuel pre Fu; (destruct fuel as [|fuel]; [cbn in Fu; lia|]); cbn [find_loop map concat app] in *.
  - apply Forall_cons_iff in F as [A F]. rewrite <- app_assoc. rewrite (match_attribute_ok a _ _ A (follows_attributes after t F T)).
    destruct (text_eqb_spec (a_name a) attribute) as [_|E]; [|congruence]. unfold value_length. rewrite Va. cbn [option_map].
    set (o := len (a_space a) + len (a_name a) + len s1 + 1 + len s2).
    assert (0 <= len pre + o) as P by (unfold o; pose proof (len_nonneg pre); pose proof (len_nonneg (a_space a)); pose proof (len_nonneg (a_name a)); pose proof (len_nonneg s1); pose proof (len_nonneg s2); lia).
    destruct (len pre + o <? 0) eqn:L; [lia|].
    assert (nth_error (pre ++ write_attribute a ++ concat (map write_attribute after) ++ t) (Z.to_nat (len pre + o)) = Some q) as ->.
    { generalize (concat (map write_attribute after) ++ t). intros aft. unfold write_attribute. rewrite Va.
      replace (pre ++ (a_space a ++ a_name a ++ s1 ++ [61] ++ s2 ++ [q] ++ v ++ [q]) ++ aft)
        with ((pre ++ a_space a ++ a_name a ++ s1 ++ [61] ++ s2) ++ q :: (v ++ [q]) ++ aft) by (rewrite <- !app_assoc; reflexivity).
      replace (Z.to_nat (len pre + o)) with (List.length (pre ++ a_space a ++ a_name a ++ s1 ++ [61] ++ s2)).
      - generalize (pre ++ a_space a ++ a_name a ++ s1 ++ [61] ++ s2). intros l. rewrite nth_error_app2 by apply le_n. now rewrite Nat.sub_diag.
      - rewrite !app_length. unfold o, len. cbn [List.length]. lia. }
    destruct A as (_ & _ & _ & V). rewrite Va in V. destruct V as (_ & _ & q' & [= <-] & Q & _).
    assert (is_quote q = true) as -> by (destruct Q as [-> | ->]; reflexivity). exists (len pre + o + 1). unfold o. split; [do 2 f_equal; lia|]. change (len []) with 0. lia.
  - apply Forall_cons_iff in F as [A F]. rewrite <- app_assoc. rewrite (match_attribute_ok x _ _ A (follows_attributes _ t F T)).
    destruct (text_eqb_spec (a_name x) attribute) as [E|_]; [destruct (Nb x (or_introl eq_refl) E)|].
    specialize (IH F (fun b I => Nb b (or_intror I)) fuel (pre ++ write_attribute x) ltac:(cbn in Fu; lia)). rewrite <- app_assoc, len_app in IH.
    destruct IH as (b & E1 & E2). exists b. split; [exact E1|]. rewrite len_app. lia.
Qed.

Lemma between_app {A} (a b c : list A) : between (a ++ b ++ c) (len a) (len a + len b) = b.
Proof.
  unfold between. replace (len a + len b - len a) with (len b) by lia. unfold len. rewrite !Nat2Z.id. rewrite skipn_app, skipn_all, Nat.sub_diag. cbn [skipn app].
  rewrite firstn_app, Nat.sub_diag, firstn_O, app_nil_r. apply firstn_all.
Qed.

Lemma attribute_nonempty a : attribute_ok a -> (1 <= List.length (write_attribute a))%nat.
Proof. intros (S0 & _). unfold write_attribute. rewrite app_length. destruct (a_space a); [congruence|]. cbn. lia. Qed.

Lemma attributes_length attrs : Forall attribute_ok attrs -> (List.length attrs <= List.length (concat (map write_attribute attrs)))%nat.
Proof. induction 1 as [|a attrs A F IH]; cbn [map concat List.length]; [lia|]. rewrite app_length. pose proof (attribute_nonempty a A). lia. Qed.

Lemma find_span_unfold name attrs t attribute : name_ok name -> Forall attribute_ok attrs -> tail_ok t ->
  find_span (write_tag name attrs t) attribute =
  find_loop (S (List.length (write_tag name attrs t))) ((60 :: name) ++ concat (map write_attribute attrs) ++ t) attribute (concat (map write_attribute attrs) ++ t) (len (60 :: name)).
Proof.
  intros N F T. unfold find_span, write_tag. rewrite match_name_ok; [rewrite len_cons; reflexivity|exact N|]. apply (proj1 (follows_attributes attrs t F T)).
Qed.

(** ** Candidates *)
Lemma find_char_spec c s : forall i, 0 <= i ->
  (find_char c s i = -1 /\ ~ In c s) \/ exists a b, s = a ++ c :: b /\ ~ In c a /\ find_char c s i = i + len a.
Proof.
  induction s as [|x s IH]; intros i P; cbn [find_char]; [left; auto|]. destruct (Z.eqb_spec x c) as [->|N].
  - right. exists [], s. change (len []) with 0. repeat split; auto. lia.
  - destruct (IH (i + 1) ltac:(lia)) as [[E1 E2]|(a & b & -> & N2 & E)].
    + left. split; [exact E1|]. intros [->|I]; auto.
    + right. exists (x :: a), b. split; [reflexivity|]. split; [intros [->|I]; auto|]. rewrite E, len_cons. lia.
Qed.

Lemma in_app_first {c : Z} a b a' b' : ~ In c a -> ~ In c a' -> a ++ c :: b = a' ++ c :: b' -> a = a' /\ b = b'.
Proof.
  revert a'. induction a as [|x a IH]; intros [|y a'] N N' E; cbn [app] in E.
  - injection E as E. auto.
  - injection E as E1 E2. exfalso. apply N'. now left.
  - injection E as E1 E2. exfalso. apply N. now left.
  - injection E as E1 E2. subst. destruct (IH a') as [K1 K2]; [intros I; apply N; now right|intros I; apply N'; now right|exact E2|]. subst. auto.
Qed.

Lemma embeds_test v : embeds v <-> text_start (chars "data:") v = true /\ ((find_char 44 v 0 <? 0) || (len v <=? find_char 44 v 0 + 1)) = false.
Proof.
  rewrite text_start_spec. change (letters "data:") with (chars "data:"). split.
  - intros (x & y & z & -> & N). change (letters "data:") with (chars "data:"). split; [eauto|].
    replace (chars "data:" ++ x ++ 44 :: y :: z) with ((chars "data:" ++ x) ++ 44 :: y :: z) by now rewrite <- app_assoc.
    destruct (find_char_spec 44 ((chars "data:" ++ x) ++ 44 :: y :: z) 0 ltac:(lia)) as [[_ E]|(a & b & E1 & E2 & ->)].
    + exfalso. apply E. rewrite in_app_iff. right. now left.
    + assert (~ In 44 (chars "data:" ++ x)) as Nx by (rewrite in_app_iff; cbn; intros [H|H]; [lia|auto]).
      destruct (in_app_first _ _ _ _ Nx E2 E1) as [<- _]. rewrite !len_app, !len_cons. change (len (chars "data:")) with 5. pose proof (len_nonneg x). pose proof (len_nonneg z). lia.
  - intros [(r & ->) H]. destruct (find_char_spec 44 (chars "data:" ++ r) 0 ltac:(lia)) as [[E _]|(a & b & E1 & E2 & E)]; [rewrite E in H; cbn in H; lia|].
    rewrite E in H. rewrite E1 in H. destruct b as [|y z]; [rewrite len_app, len_cons in H; change (len []) with 0 in H; pose proof (len_nonneg a); lia|].
    assert (exists x, a = chars "data:" ++ x) as (x & ->).
    { clear - E1 E2. set (p := chars "data:") in *. assert (~ In 44 p) as Np by (cbn; lia). clearbody p. revert a E1 E2. induction p as [|c p IH]; intros a E1 E2; [exists a; reflexivity|]. cbn [app] in E1.
      destruct a as [|d a]; cbn [app] in E1; injection E1 as -> E1; [exfalso; apply Np; now left|].
      destruct (IH (fun I => Np (or_intror I)) a E1) as (x & ->); [intros I; apply E2; now right|]. now exists x. }
    exists x, y, z. split; [rewrite E1, <- app_assoc; reflexivity|]. intros I. apply E2. rewrite in_app_iff. now right.
Qed.

Lemma dict_of_NoDup {V} (l : list (text * V)) : NoDup (map fst l) -> dict_of text_eqb l = l.
Proof.
  assert (forall d, NoDup (map fst (d ++ l)) -> dupdate text_eqb d l = d ++ l) as K.
  { induction l as [|[k v] l IH]; intros d N; [now rewrite app_nil_r|]. unfold dupdate. cbn [fold_left]. change (fold_left _ l ?x) with (dupdate text_eqb x l).
    assert (dset text_eqb d k v = d ++ [(k, v)]) as ->.
    { assert (~ In k (map fst d)) as Nk. { rewrite map_app in N. cbn [map fst] in N. apply NoDup_remove_2 in N. rewrite in_app_iff in N. tauto. }
      clear - Nk. induction d as [|[k' v'] d IH]; [reflexivity|]. cbn [map fst In dset] in *. destruct (text_eqb_spec k k') as [->|]; [exfalso; auto|]. cbn [app]. rewrite IH; auto. }
    rewrite IH; rewrite <- app_assoc; [reflexivity|exact N]. }
  intros N. apply (K []). exact N.
Qed.

Lemma tag_candidates_spec attrs : NoDup (map a_name attrs) -> (forall a, In a attrs -> lower (a_name a) = a_name a) ->
  NoDup (map fst (tag_candidates (map reported attrs))) /\
  (forall attribute, In attribute (map fst (tag_candidates (map reported attrs))) <-> exists a v, In a attrs /\ a_name a = attribute /\ value_of a = Some v /\ embeds v) /\
  (forall attribute u, In (attribute, u) (tag_candidates (map reported attrs)) ->
     (exists a, In a attrs /\ a_name a = chars "data-savepage-" ++ attribute /\ value_of a = Some u) \/
     (u = [] /\ forall a v, In a attrs -> a_name a = chars "data-savepage-" ++ attribute -> value_of a <> Some v)).
Proof.
  intros N L. unfold tag_candidates. set (test := keep_attribute).
  assert (map fst (map reported attrs) = map a_name attrs) as En. { rewrite map_map. apply map_ext_in. intros a I. cbn [reported fst]. now apply L. }
  assert (forall l : list (text * option text), NoDup (map fst l) -> NoDup (map fst (filter test l))) as Nf.
  { induction l as [|x l IH]; intros H; [constructor|]. cbn [map filter] in *. inversion H; subst. destruct (test x); [|auto]. cbn [map]. constructor; [|auto].
    intros I. apply in_map_iff in I as (y & E & I). apply filter_In in I as [I _]. apply H2. rewrite <- E. now apply in_map. }
  rewrite <- En in N. specialize (Nf _ N). rewrite (dict_of_NoDup _ Nf). set (kept := filter test (map reported attrs)) in *.
  set (out := candidate_of kept).
  assert (forall a v, In (a, v) kept <-> exists x, In x attrs /\ reported x = (a, v) /\ test (a, v) = true) as Ik.
  { intros a v. unfold kept. rewrite filter_In, in_map_iff. firstorder. }
  assert (forall attribute value r, In r (out (attribute, value)) <-> fst r = attribute /\ (exists v, value = Some v /\ embeds v) /\
     snd r = match dget text_eqb kept (chars "data-savepage-" ++ attribute) with Some (Some u) => u | _ => [] end) as Io.
  { intros attribute value [a u]. unfold out, candidate_of. cbn [fst snd]. destruct value as [v|]; [|split; [intros []|intros (_ & (v & [=] & _) & _)]].
    destruct (text_start (chars "data:") v) eqn:T; cbn [negb]; [|split; [intros []|intros (_ & (v' & [= <-] & M) & _); apply embeds_test in M as [M _]; congruence]].
    destruct ((find_char 44 v 0 <? 0) || (len v <=? find_char 44 v 0 + 1)) eqn:C.
    - split; [intros []|intros (_ & (v' & [= <-] & M) & _); apply embeds_test in M as [_ M]; congruence].
    - split.
      + intros [[= <- <-]|[]]. split; [reflexivity|]. split; [|reflexivity]. exists v. split; [reflexivity|]. now apply embeds_test.
      + intros (<- & _ & ->). now left. }
  split; [|split].
  - assert (forall l, NoDup (map fst l) -> NoDup (map fst (flat_map out l))) as K; [|now apply K].
    induction l as [|[a v] l IH]; intros H; [constructor|]. cbn [flat_map map fst] in *. inversion H; subst. rewrite map_app. specialize (IH H3).
    assert (forall r, In r (map fst (out (a, v))) -> r = a) as E1. { intros r I. apply in_map_iff in I as (y & <- & I). apply Io in I. tauto. }
    assert (forall r, In r (map fst (flat_map out l)) -> In r (map fst l)) as E2.
    { intros r I. apply in_map_iff in I as (y & <- & I). apply in_flat_map in I as ([a' v'] & I1 & I2). apply Io in I2 as (-> & _). now apply (in_map fst) in I1. }
    assert (map fst (out (a, v)) = [] \/ map fst (out (a, v)) = [a]) as [-> | ->].
    { unfold out, candidate_of. cbn [fst snd]. destruct v as [v|]; [|auto]. destruct (negb _); [auto|]. destruct (_ || _); [auto|]. right. reflexivity. }
    + exact IH.
    + cbn [app]. constructor; [|exact IH]. intros I. apply E2 in I. contradiction.
  - intros attribute. rewrite in_map_iff. split.
    + intros ([a u] & Ea & I). cbn in Ea. subst a. apply in_flat_map in I as ([a' v'] & I1 & I2). apply Io in I2 as (E & (v & -> & M) & _). cbn [fst] in E. subst a'.
      apply Ik in I1 as (x & Ix & R & _). injection R as R1 R2. exists x, v. rewrite (L x Ix) in R1. auto.
    + intros (a & v & Ia & Na & Va & M). eexists (attribute, _). split; [reflexivity|]. apply in_flat_map. exists (attribute, Some v). split.
      * apply Ik. exists a. split; [exact Ia|]. split; [unfold reported; rewrite (L a Ia), Na, Va; reflexivity|]. unfold test, keep_attribute. cbn [fst snd]. apply embeds_test in M as [M _]. now rewrite M.
      * apply Io. cbn [fst snd]. split; [reflexivity|]. split; [eauto|reflexivity].
  - intros attribute u I. apply in_flat_map in I as ([a' v'] & I1 & I2). apply Io in I2 as (E & _ & Eu). cbn [fst snd] in E, Eu. subst a'.
    destruct (dget text_eqb kept (chars "data-savepage-" ++ attribute)) as [[u'|]|] eqn:D.
    + left. subst u'. apply (dget_Some_In _ text_eqb_spec) in D. apply Ik in D as (x & Ix & R & _). injection R as R1 R2. exists x. rewrite (L x Ix) in R1. auto.
    + right. split; [exact Eu|]. intros a v Ia Na Va. apply (dget_Some_In _ text_eqb_spec) in D. apply Ik in D as (x & Ix & R & _). pose proof (f_equal fst R) as R1. pose proof (f_equal snd R) as R2. cbn [fst snd reported] in R1, R2. rewrite (L x Ix) in R1.
      assert (x = a) as ->; [|congruence]. rewrite En in N. clear - N Ia Ix R1 Na. assert (a_name x = a_name a) as E by congruence. clear R1 Na. induction attrs as [|y attrs IH]; [destruct Ia|]. cbn [map] in N. inversion N; subst.
      destruct Ia as [->|Ia], Ix as [->|Ix]; auto; exfalso; apply H1; [rewrite <- E|rewrite E]; now apply in_map.
    + right. split; [exact Eu|]. intros a v Ia Na Va. apply (dget_None _ text_eqb_spec) in D. apply D. unfold dkeys. apply in_map_iff. exists (chars "data-savepage-" ++ attribute, Some v). split; [reflexivity|].
      apply Ik. exists a. split; [exact Ia|]. split; [unfold reported; rewrite (L a Ia), Na, Va; reflexivity|]. unfold test, keep_attribute. cbn [fst snd].
      assert (text_start (chars "data-savepage-") (chars "data-savepage-" ++ attribute) = true) as -> by (apply text_start_spec; eauto). apply orb_true_r.
Qed.

(** ** Positions *)
Lemma newlines_app s t p : newlines (s ++ t) p = newlines s p ++ newlines t (p + len s).
Proof.
  revert p. induction s as [|c s IH]; intros p; cbn [app newlines].
  - change (len []) with 0. now rewrite Z.add_0_r.
  - rewrite IH, len_cons, Z.add_assoc. now destruct (c =? 10).
Qed.

Lemma line_offsets_concat chunks : forall p, line_offsets chunks p = newlines (concat chunks) p.
Proof. induction chunks as [|c r IH]; intros p; cbn [line_offsets concat]; [reflexivity|]. now rewrite newlines_app, IH. Qed.

Lemma position_le s : forall line col, line <= fst (position s line col).
Proof. induction s as [|c s IH]; intros line col; cbn [position fst]; [lia|]. destruct (c =? 10); [specialize (IH (line + 1) 0); lia|apply IH]. Qed.

Lemma position_offset s : forall p line col rest,
  nth_error ((p - col) :: newlines s p ++ rest) (Z.to_nat (fst (position s line col) - line)) = Some (p + len s - snd (position s line col)).
Proof.
  induction s as [|c s IH]; intros p line col rest; cbn [position newlines app].
  - cbn [fst snd]. rewrite Z.sub_diag. cbn. f_equal. change (len []) with 0. lia.
  - rewrite len_cons. destruct (c =? 10).
    + specialize (IH (p + 1) (line + 1) 0 rest). pose proof (position_le s (line + 1) 0) as Q.
      replace (Z.to_nat (fst (position s (line + 1) 0) - line)) with (S (Z.to_nat (fst (position s (line + 1) 0) - (line + 1)))) by lia.
      cbn [nth_error app]. rewrite Z.sub_0_r in IH. rewrite IH. f_equal. lia.
    + specialize (IH (p + 1) line (col + 1) rest). replace (p + 1 - (col + 1)) with (p - col) in IH by lia. rewrite IH. f_equal. lia.
Qed.

Lemma width_app a b : width (a ++ b) = width a + width b.
Proof. unfold width. induction a as [|x a IH]; cbn [app fold_right]; [reflexivity|]. rewrite IH. lia. Qed.

Lemma width_len d : Forall (fun x => 1 <= snd x) d -> len d <= width d.
Proof. unfold width. induction 1 as [|x d H _ IH]; cbn [fold_right]; [reflexivity|]. rewrite len_cons. lia. Qed.

Lemma width_one d : Forall (fun x => snd x = 1) d -> width d = len d.
Proof. unfold width. induction 1 as [|x d H _ IH]; cbn [fold_right]; [reflexivity|]. rewrite len_cons. lia. Qed.

Lemma ztake_app_len {A} (a b : list A) : ztake (len a) (a ++ b) = a.
Proof. rewrite ztake_app_le by lia. apply ztake_all. lia. Qed.
Lemma zskip_app_len {A} (a b : list A) : zskip (len a) (a ++ b) = b.
Proof. rewrite zskip_app_ge by lia. rewrite Z.sub_diag. apply zskip_0. Qed.

Lemma convert_ok offsets : forall pre rest,
  (forall i j, (i <= j)%nat -> (j < List.length offsets)%nat -> nth i offsets 0 <= nth j offsets 0) ->
  (forall o, In o offsets -> len pre <= o <= len (pre ++ rest)) ->
  exists l, convert_offsets rest (len pre) (width pre) offsets = Ok l /\ map fst l = offsets /\ forall o b, In (o, b) l -> b = width (ztake o (pre ++ rest)).
Proof.
  induction offsets as [|o os IH]; intros pre rest S B; cbn [convert_offsets]; [exists []; repeat split; intros ? ? []|].
  pose proof (B o (or_introl eq_refl)) as Bo. destruct (o <? len pre) eqn:L; [lia|]. rewrite len_app in Bo.
  set (n := o - len pre). set (r1 := ztake n rest). set (r2 := zskip n rest).
  assert (rest = r1 ++ r2) as Er by (unfold r1, r2; symmetry; apply ztake_zskip; unfold n; lia).
  assert (len r1 = n) as Ln by (unfold r1; rewrite len_ztake by (unfold n; lia); unfold n; lia).
  rewrite Ln. replace (len pre + n) with o by (unfold n; lia). rewrite Z.eqb_refl. cbn [negb].
  destruct (IH (pre ++ r1) r2) as (l & E & M & K).
  - intros i j Hi Hj. apply (S (Datatypes.S i) (Datatypes.S j)); cbn; lia.
  - intros o' I. rewrite <- app_assoc, <- Er. split; [|apply B; now right]. rewrite len_app, Ln.
    destruct (In_nth os o' 0 I) as (j & Hj & Ej). pose proof (S 0%nat (Datatypes.S j) ltac:(lia) ltac:(cbn; lia)) as Q. cbn in Q. rewrite Ej in Q. unfold n. lia.
  - rewrite len_app, Ln, width_app in E. replace (len pre + n) with o in E by (unfold n; lia). rewrite E. cbn [bind]. eexists. split; [reflexivity|]. cbn [map fst]. split; [now rewrite M|].
    intros o' b [Eb|I].
    + injection Eb as <- <-. rewrite Er. replace o with (len (pre ++ r1)) by (rewrite len_app; unfold n in Ln; lia). rewrite app_assoc, ztake_app_len. now rewrite width_app.
    + rewrite (K _ _ I). now rewrite <- app_assoc, <- Er.
Qed.

Lemma seek_ok pre rest : Forall (fun x => 1 <= snd x) pre -> seek (pre ++ rest) (width pre) = Some rest.
Proof.
  induction 1 as [|[c w] pre H F IH]; [destruct rest; reflexivity|]. cbn [app seek width fold_right snd] in *. fold (width pre).
  pose proof (width_len pre F). pose proof (len_nonneg pre). destruct (w + width pre =? 0) eqn:E1; [lia|]. destruct (w + width pre <? w) eqn:E2; [lia|].
  replace (w + width pre - w) with (width pre) by lia. exact IH.
Qed.

Lemma read_ok pre part rest : Forall (fun x => 1 <= snd x) pre -> read_at (pre ++ part ++ rest) (width pre) (len part) = Ok (characters part).
Proof. intros F. unfold read_at. rewrite (seek_ok _ _ F). now rewrite ztake_app_len. Qed.

Lemma characters_app a b : characters (a ++ b) = characters a ++ characters b.
Proof. apply map_app. Qed.
Lemma characters_len a : len (characters a) = len a.
Proof. unfold characters, len. now rewrite map_length. Qed.

Lemma tail_ok_app t u : tail_ok t -> tail_ok (t ++ u).
Proof. intros (s & c & r & -> & B & C). exists s, c, (r ++ u). split; [now rewrite <- app_assoc|]. auto. Qed.

(** ** Base64 *)
Lemma b64_char_value v : 0 <= v < 64 -> b64_value (b64_char v) = Some v /\ b64_char v <> 61.
Proof.
  intros B. unfold b64_char. destruct (v <? 26) eqn:E1; [|destruct (v <? 52) eqn:E2; [|destruct (v <? 62) eqn:E3; [|destruct (v =? 62) eqn:E4]]].
  - unfold b64_value. replace ((65 <=? 65 + v) && (65 + v <=? 90)) with true by lia. split; [f_equal; lia|lia].
  - unfold b64_value. replace ((65 <=? 71 + v) && (71 + v <=? 90)) with false by lia. replace ((97 <=? 71 + v) && (71 + v <=? 122)) with true by lia. split; [f_equal; lia|lia].
  - unfold b64_value. replace ((65 <=? v - 4) && (v - 4 <=? 90)) with false by lia. replace ((97 <=? v - 4) && (v - 4 <=? 122)) with false by lia.
    replace ((48 <=? v - 4) && (v - 4 <=? 57)) with true by lia. split; [f_equal; lia|lia].
  - assert (v = 62) as -> by lia. split; [reflexivity|lia].
  - assert (v = 63) as -> by lia. split; [reflexivity|lia].
Qed.

Lemma b64_step v r quad left pads : 0 <= v < 64 -> b64_loop (b64_char v :: r) quad left pads =
  if quad =? 0 then b64_loop r 1 v 0
  else if quad =? 1 then bind (b64_loop r 2 (v mod 16) 0) (fun t => Ok (left * 4 + v / 16 :: t))
  else if quad =? 2 then bind (b64_loop r 3 (v mod 4) 0) (fun t => Ok (left * 16 + v / 4 :: t))
  else bind (b64_loop r 0 0 0) (fun t => Ok (left * 64 + v :: t)).
Proof.
  intros B. destruct (b64_char_value v B) as [E N]. cbn [b64_loop]. destruct (Z.eqb_spec (b64_char v) 61); [contradiction|]. now rewrite E.
Qed.

Lemma b64_roundtrip n : forall bytes, (List.length bytes <= n)%nat -> Forall (fun b => 0 <= b < 256) bytes -> b64_loop (b64_encode bytes) 0 0 0 = Ok bytes.
Proof.
  assert (forall a b, 0 <= a < 256 -> 0 <= b < 256 -> 0 <= a mod 4 * 16 + b / 16 < 64 /\ (a mod 4 * 16 + b / 16) / 16 = a mod 4 /\ (a mod 4 * 16 + b / 16) mod 16 = b / 16) as K1.
  { intros a b Ha Hb. pose proof (Z.mod_pos_bound a 4 ltac:(lia)). assert (0 <= b / 16 < 16) by (split; [apply Z.div_pos; lia|apply Z.div_lt_upper_bound; lia]).
    split; [lia|]. split; [rewrite Z.div_add_l, Z.div_small by lia; lia|rewrite Z.add_comm, Z.mod_add, Z.mod_small by lia; reflexivity]. }
  assert (forall b c, 0 <= b < 256 -> 0 <= c < 256 -> 0 <= b mod 16 * 4 + c / 64 < 64 /\ (b mod 16 * 4 + c / 64) / 4 = b mod 16 /\ (b mod 16 * 4 + c / 64) mod 4 = c / 64) as K2.
  { intros b c Hb Hc. pose proof (Z.mod_pos_bound b 16 ltac:(lia)). assert (0 <= c / 64 < 4) by (split; [apply Z.div_pos; lia|apply Z.div_lt_upper_bound; lia]).
    split; [lia|]. split; [rewrite Z.div_add_l, Z.div_small by lia; lia|rewrite Z.add_comm, Z.mod_add, Z.mod_small by lia; reflexivity]. }
  assert (forall a, 0 <= a < 256 -> 0 <= a / 4 < 64) as K0 by (intros a Ha; split; [apply Z.div_pos; lia|apply Z.div_lt_upper_bound; lia]).
  induction n as [|n IH]; intros bytes L F; [destruct bytes; [reflexivity|cbn in L; lia]|].
  destruct bytes as [|a [|b [|c r]]]; cbn [b64_encode].
  - reflexivity.
  - apply Forall_cons_iff in F as [Ha _]. destruct (K1 a 0 Ha ltac:(lia)) as (B1 & D1 & M1). change (0 / 16) with 0 in *. rewrite Z.add_0_r in *.
    rewrite b64_step by now apply K0. cbn [Z.eqb]. rewrite b64_step by exact B1. cbn [Z.eqb Pos.eqb]. rewrite D1. cbn [b64_loop Z.eqb Pos.eqb Z.leb Z.compare Pos.compare Pos.compare_cont Z.add Pos.add Pos.succ bind].
    do 2 f_equal. pose proof (Z.div_mod a 4 ltac:(lia)). lia.
  - apply Forall_cons_iff in F as [Ha F]. apply Forall_cons_iff in F as [Hb _]. destruct (K1 a b Ha Hb) as (B1 & D1 & M1). destruct (K2 b 0 Hb ltac:(lia)) as (B2 & D2 & M2). change (0 / 64) with 0 in *. rewrite Z.add_0_r in *.
    rewrite b64_step by now apply K0. cbn [Z.eqb]. rewrite b64_step by exact B1. cbn [Z.eqb Pos.eqb]. rewrite D1, M1. rewrite b64_step by exact B2. cbn [Z.eqb Pos.eqb]. rewrite D2.
    cbn [b64_loop Z.eqb Pos.eqb Z.leb Z.compare Pos.compare Pos.compare_cont Z.add Pos.add Pos.succ bind].
    pose proof (Z.div_mod a 4 ltac:(lia)). pose proof (Z.div_mod b 16 ltac:(lia)). repeat f_equal; lia.
  - apply Forall_cons_iff in F as [Ha F]. apply Forall_cons_iff in F as [Hb F]. apply Forall_cons_iff in F as [Hc F].
    destruct (K1 a b Ha Hb) as (B1 & D1 & M1). destruct (K2 b c Hb Hc) as (B2 & D2 & M2).
    rewrite b64_step by now apply K0. cbn [Z.eqb]. rewrite b64_step by exact B1. cbn [Z.eqb Pos.eqb]. rewrite D1, M1. rewrite b64_step by exact B2. cbn [Z.eqb Pos.eqb]. rewrite D2, M2.
    rewrite b64_step by (apply Z.mod_pos_bound; lia). cbn [Z.eqb Pos.eqb]. rewrite IH; [|cbn in L; lia|exact F]. cbn [bind].
    pose proof (Z.div_mod a 4 ltac:(lia)). pose proof (Z.div_mod b 16 ltac:(lia)). pose proof (Z.div_mod c 64 ltac:(lia)). repeat f_equal; lia.
Qed.

Lemma b64_interspersed s t : interspersed s t -> forall quad left pads, b64_loop t quad left pads = b64_loop s quad left pads.
Proof.
  induction 1 as [|c s t H IH|c s t N H IH]; intros quad left pads; [reflexivity| |].
  - cbn [b64_loop]. destruct (c =? 61); [destruct (2 <=? quad); [destruct (4 <=? quad + pads + 1); [reflexivity|]|]; apply IH|].
    destruct (b64_value c); [|apply IH]. now rewrite !IH.
  - rewrite <- IH. cbn [b64_loop]. unfold b64_alphabet, lower_letter, upper_letter in N. destruct (Z.eqb_spec c 61); [exfalso; tauto|].
    assert (b64_value c = None) as ->; [|reflexivity]. unfold b64_value.
    replace ((65 <=? c) && (c <=? 90)) with false by lia. replace ((97 <=? c) && (c <=? 122)) with false by lia. replace ((48 <=? c) && (c <=? 57)) with false by lia.
    destruct (c =? 43) eqn:E1; [lia|]. destruct (c =? 47) eqn:E2; [lia|]. reflexivity.
Qed.

(** ** URLs *)
Lemma plain_ok c : plain_char c -> is_plain c = true.
Proof. unfold plain_char, is_plain, is_quote. lia. Qed.

Lemma inner_slash m : (exists a b, m = a ++ 47 :: b /\ a <> [] /\ b <> []) -> has_inner_slash m false = true.
Proof.
  intros (a & b & -> & Na & Nb). assert (forall a f, (f = true \/ a <> []) -> has_inner_slash (a ++ 47 :: b) f = true) as K; [|apply K; auto].
  clear a Na. induction a as [|x a IH]; intros f H.
  - destruct H as [->|H]; [|congruence]. destruct b; [congruence|]. reflexivity.
  - cbn [app]. assert (a ++ 47 :: b <> []) as Ne by (destruct a; discriminate). specialize (IH true (or_introl eq_refl)). destruct (a ++ 47 :: b) as [|y l] eqn:E; [congruence|].
    cbn [has_inner_slash]. rewrite <- E in *. cbn [has_inner_slash] in IH. rewrite E in IH. change (has_inner_slash (y :: l) true = true) in IH. 
    destruct l as [|z l].
    + rewrite E in IH || idtac. cbn in IH. discriminate.
    + cbn [has_inner_slash] in *. rewrite IH. apply orb_true_r.
Qed.

Lemma parameters_ok ps : forall fuel data, Forall (Forall plain_char) ps -> (List.length (write_parameters ps ++ 44%Z :: data) <= fuel)%nat ->
  match_parameters fuel (write_parameters ps ++ 44 :: data) = (ps, 44 :: data).
Proof.
  induction ps as [|p ps IH]; intros fuel data F L.
  - destruct fuel; reflexivity.
  - apply Forall_cons_iff in F as [Fp F]. destruct fuel as [|fuel]; [cbn in L; lia|]. unfold write_parameters. cbn [map concat app match_parameters]. fold (write_parameters ps). rewrite <- app_assoc.
    rewrite (span_all is_plain p); [|revert Fp; apply Forall_impl; exact plain_ok|destruct ps; reflexivity].
    rewrite IH; [reflexivity|exact F|]. unfold write_parameters in L. cbn [map concat app List.length] in L. fold (write_parameters ps) in L. rewrite !app_length in *. lia.
Qed.

Lemma match_url_ok mime ps data : media_type mime -> Forall (Forall plain_char) ps ->
  match_data_url (chars "data:" ++ mime ++ write_parameters ps ++ 44 :: data) = Some (Some mime, ps, data).
Proof.
  intros (Fm & M) F. unfold match_data_url. rewrite (proj2 (text_start_spec _ _)) by eauto. cbn [negb].
  change 5 with (len (chars "data:")). rewrite zskip_app_len. rewrite (span_all is_plain mime); [|revert Fm; apply Forall_impl; exact plain_ok|destruct ps; reflexivity].
  rewrite (inner_slash _ M). destruct mime as [|c mime]; [destruct M as ([|] & b & E & ? & ?); discriminate|]. cbn [negb].
  rewrite parameters_ok; [reflexivity|exact F|lia].
Qed.
