(** Proofs about the command line. *)
From Coq Require Import Ascii String Sorting.Permutation.
From Verif Require Import PyBase PyDict PyStr PyInt Factory_Model Factory_Spec Strip_Model Offsets_Model Offsets_Spec Offsets_Proofs Offsets_Props Cli_Model Cli_Spec.
Local Open Scope Z_scope.

(** ** Numbers *)
Lemma int_of_digits_number s : int_of_digits s = number 10 s.
Proof. reflexivity. Qed.
Lemma isdigit_iff s : isdigit s = true <-> exists n, number_text s n.
Proof.
  unfold number_text. split.
  - intros H. exists (number 10 s). destruct s as [|c s]; [discriminate|]. split; [discriminate|]. apply (numeral_of 10); [lia|].
    unfold isdigit in H. rewrite forallb_forall in H |- *. intros x I. apply H in I. unfold is_digit in I.
    apply andb_true_iff in I as [I1 I2]. apply andb_true_iff. split; [assumption|]. apply Nat.leb_le in I2. apply Nat.ltb_lt. lia.
  - intros (n & Hne & H). apply numeral_digits in H. destruct s; [congruence|]. unfold isdigit. apply forallb_forall. now rewrite Forall_forall in H.
Qed.
Lemma int_text s n : number_text s n -> int_of_digits s = n.
Proof. intros [_ H]. rewrite int_of_digits_number. now apply (numeral_number 10); [lia|]. Qed.
Lemma number_text_no c s n : number_text s n -> is_digit c = false -> ~ In c s.
Proof. intros [_ H] E I. apply numeral_digits in H. rewrite Forall_forall in H. apply H in I. congruence. Qed.

(** ** Items *)
Lemma pairs_spec parts items : Forall2 item_text parts items ->
  exists l, pairs_of parts = Ok l /\ map fst l = map fst items /\ Forall2 (fun kv item => number_text (snd kv) (snd item)) l items.
Proof.
  induction 1 as [|p [b n] parts items (d & Hd & -> & N1 & N2) _ (l & E & M & F)]; [exists []; repeat split; constructor|].
  cbn [fst snd] in *. exists ((b, d) :: l). cbn [pairs_of]. change (b ++ $":" ++ d) with (b ++ ":"%char :: d).
  rewrite split_app by assumption. rewrite split_no_sep by (eapply number_text_no; [exact Hd|reflexivity]). rewrite E.
  split; [reflexivity|]. split; [cbn; now rewrite M|]. now constructor.
Qed.
Lemma pairs_complete parts l : pairs_of parts = Ok l ->
  Forall2 (fun p kv => p = fst kv ++ ":"%char :: snd kv /\ ~ In ":"%char (fst kv)) parts l.
Proof.
  revert l. induction parts as [|p parts IH]; intros l; cbn [pairs_of]; [intros [= <-]; constructor|].
  destruct (split ":" p) as [|k [|v [|]]] eqn:E; try discriminate. destruct (pairs_of parts) as [l'|]; [|discriminate]. intros [= <-].
  constructor; [|now apply IH]. cbn [fst snd]. split.
  - rewrite <- (join_split ":" p), E. reflexivity.
  - apply (split_In_no_sep ":" p). rewrite E. now left.
Qed.

(** ** The dictionary *)
Lemma dget_dupdate_last {V} (l : list (str * V)) : forall d k, dget str_eqb (dupdate str_eqb d l) k =
  match dget str_eqb (rev l) k with Some v => Some v | None => dget str_eqb d k end.
Proof.
  assert (G : forall (a b : list (str * V)) k, dget str_eqb (a ++ b) k = match dget str_eqb a k with Some v => Some v | None => dget str_eqb b k end).
  { induction a as [|[x w] a IHa]; intros b k; cbn [dget app]; [reflexivity|]. destruct (str_eqb k x); [reflexivity|apply IHa]. }
  induction l as [|[x v] l IH]; intros d k; [reflexivity|]. cbn [dupdate fold_left rev]. 
  change (fold_left (fun acc '(k0, v0) => dset str_eqb acc k0 v0) l (dset str_eqb d x v)) with (dupdate str_eqb (dset str_eqb d x v) l).
  rewrite IH, G. destruct (dget str_eqb (rev l) k); [reflexivity|]. rewrite (dget_dset str_eqb str_eqb_spec). cbn [dget].
  now destruct (str_eqb k x).
Qed.

Lemma counts_spec cores l : forall result, Forall (fun kv => isdigit (snd kv) = true) l ->
  counts_of cores l result = Ok (dupdate str_eqb result (map (fun kv => (fst kv, meant cores (int_of_digits (snd kv)))) l)).
Proof.
  induction l as [|[b t] l IH]; intros result H; [reflexivity|]. apply Forall_cons_iff in H as [H1 H2]. cbn [snd] in H1.
  cbn [counts_of]. rewrite H1, IH by assumption. reflexivity.
Qed.
Lemma counts_Ok cores l : forall result d, counts_of cores l result = Ok d -> Forall (fun kv => isdigit (snd kv) = true) l.
Proof.
  induction l as [|[b t] l IH]; intros result d; cbn [counts_of]; [constructor|]. destruct (isdigit t) eqn:E; [|discriminate].
  intros H. constructor; [exact E|]. eapply IH, H.
Qed.

(** The last number given for a name *)
Definition last_number (items : list (str * Z)) (name : str) : option Z := dget str_eqb (rev items) name.
Lemma last_number_Some items name n : last_number items name = Some n <->
  exists before after, items = before ++ (name, n) :: after /\ ~ In name (map fst after).
Proof.
  unfold last_number. split.
  - intros H. assert (exists a b, rev items = a ++ (name, n) :: b /\ ~ In name (map fst a)) as (a & b & E & N).
    { clear - H. induction (rev items) as [|[k v] l IH]; [discriminate|]. cbn [dget] in H. destruct (str_eqb name k) eqn:E.
      - injection H as ->. apply str_eqb_eq in E as ->. now exists [], l.
      - destruct (IH H) as (a & b & -> & N). exists ((k, v) :: a), b. split; [reflexivity|]. intros [K|K]; [|now apply N]. cbn in K.
        apply str_eqb_neq in E. congruence. }
    exists (rev b), (rev a). split.
    + rewrite <- (rev_involutive items), E, rev_app_distr. cbn [rev]. now rewrite <- app_assoc.
    + rewrite map_rev, <- in_rev. exact N.
  - intros (before & after & -> & N). rewrite rev_app_distr. cbn [rev]. rewrite <- app_assoc. cbn [app].
    assert (N' : ~ In name (map fst (rev after))) by now rewrite map_rev, <- in_rev.
    revert N'. generalize (rev after). induction l as [|[k v] l IH]; cbn [app dget map fst]; intros N'; [now rewrite str_eqb_refl|].
    destruct (str_eqb name k) eqn:E; [apply str_eqb_eq in E; subst; exfalso; apply N'; now left|]. apply IH. intros I. apply N'. now right.
Qed.
Lemma last_number_None items name : last_number items name = None <-> ~ In name (map fst items).
Proof.
  unfold last_number. rewrite (dget_None str_eqb str_eqb_spec). unfold dkeys. now rewrite map_rev, <- in_rev.
Qed.

Lemma dget_map {V W} (f : V -> W) (l : list (str * V)) k :
  dget str_eqb (map (fun kv => (fst kv, f (snd kv))) l) k = option_map f (dget str_eqb l k).
Proof. induction l as [|[x v] l IH]; [reflexivity|]. cbn [map dget fst snd]. now destruct (str_eqb k x). Qed.

Lemma dict_keys_In {V} (l : list (str * V)) x v : In (x, v) (dict_of str_eqb l) -> In (x, v) l.
Proof.
  intros I. assert (N : NoDup (dkeys (dict_of str_eqb l))) by (apply (NoDup_dupdate str_eqb str_eqb_spec); constructor).
  apply (NoDup_dget str_eqb str_eqb_spec) in I; [|exact N]. unfold dict_of in I. rewrite dget_dupdate_last in I.
  destruct (dget str_eqb (rev l) x) as [w|] eqn:E; [|discriminate]. injection I as <-. apply (dget_Some_In str_eqb str_eqb_spec) in E. now apply in_rev.
Qed.

(** What the parser's table says for a well-formed text *)
Lemma dget_counts cores (l : list (str * str)) k : NoDup (map fst l) ->
  dget str_eqb (dupdate str_eqb [] (map (fun kv => (fst kv, meant cores (int_of_digits (snd kv)))) l)) k =
  option_map (fun t => meant cores (int_of_digits t)) (dget str_eqb l k).
Proof.
  intros N. rewrite (dget_dupdate str_eqb str_eqb_spec).
  - rewrite (dget_map (fun t => meant cores (int_of_digits t))). destruct (dget str_eqb l k); reflexivity.
  - unfold dkeys. rewrite map_map. exact N.
Qed.

Lemma parse_spec cores text items : thread_text text items ->
  exists d, parse_parallelization cores text = Ok d /\
    forall k, dget str_eqb d k = match last_number items k with Some n => Some (meant cores n) | None => match k with [] => Some cores | _ => None end end.
Proof.
  intros H.
  assert (exists l, (if isdigit text then Ok [([], text)]
         else match pairs_of (split "," text) with Ok l => Ok (dict_of str_eqb l) | Err e => Err e end) = Ok l /\ NoDup (map fst l) /\
     Forall (fun kv => isdigit (snd kv) = true) l /\ forall k, option_map int_of_digits (dget str_eqb l k) = last_number items k) as (l & E & N & D & L).
  { destruct H as [s n H|parts items Hne H].
    - exists [([], s)]. assert (E : isdigit s = true) by (apply isdigit_iff; eauto). rewrite E. split; [reflexivity|].
      split; [repeat constructor; intros []|]. split; [repeat constructor; exact E|]. intros k. cbn. destruct (str_eqb k []); [|reflexivity].
      cbn. now rewrite (int_text s n H).
    - assert (Hp : parts <> []) by (intros ->; inversion H; subst; congruence).
      assert (E : isdigit (join $"," parts) = false).
      { destruct (isdigit (join $"," parts)) eqn:E; [|reflexivity]. exfalso. destruct parts as [|p parts]; [congruence|].
        assert (I : In ":"%char (join $"," (p :: parts))).
        { inversion H as [|? [b n] ? ? (d & _ & -> & _) _]; subst. cbn [fst snd]. destruct parts; cbn [join].
          - apply in_or_app. right. now left.
          - apply in_or_app. left. apply in_or_app. right. now left. }
        destruct (join $"," (p :: parts)) eqn:J; [destruct I|]. rewrite <- J in E, I. unfold isdigit in E.
        assert (F : forallb is_digit (join $"," (p :: parts)) = true) by (rewrite J in E |- *; exact E).
        rewrite forallb_forall in F. apply F in I. discriminate. }
      rewrite E. change ($",") with ([","%char]). rewrite split_join.
      + destruct (pairs_spec parts items H) as (l & E' & M & F). rewrite E'. exists (dict_of str_eqb l). split; [reflexivity|].
        split; [apply (NoDup_dupdate str_eqb str_eqb_spec); constructor|].
        assert (D : Forall (fun kv => isdigit (snd kv) = true) l).
        { clear - F. induction F; constructor; [apply isdigit_iff; eauto|assumption]. }
        split.
        * rewrite Forall_forall in D |- *. intros [x v] I. apply D. now apply dict_keys_In.
        * intros k. unfold dict_of. rewrite dget_dupdate_last.
          assert (R : map (fun kv => (fst kv, int_of_digits (snd kv))) l = items).
          { clear - M F. revert M. induction F as [|[a t] [b n] l items H F IH]; [reflexivity|]. cbn [map fst snd]. intros [= -> M].
            cbn [snd] in H. rewrite (int_text t n H). f_equal. now apply IH. }
          unfold last_number. rewrite <- R, <- map_rev, dget_map. now destruct (dget str_eqb (rev l) k).
      + exact Hp.
      + clear - H. induction H as [|p [b n] parts items (d & Hd & -> & N1 & N2) H IH]; constructor; [|exact IH].
        cbn [fst snd] in *. rewrite !in_app_iff. intros [I|[[I|[]]|I]]; [now apply N1|discriminate|].
        now apply (number_text_no "," d _ Hd). }
  unfold parse_parallelization. rewrite E, (counts_spec cores l [] D).
  assert (G : forall k, dget str_eqb (dupdate str_eqb [] (map (fun kv => (fst kv, meant cores (int_of_digits (snd kv)))) l)) k =
              option_map (meant cores) (last_number items k)).
  { intros k. rewrite dget_counts, <- L by assumption. now destruct (dget str_eqb l k). }
  set (r := dupdate str_eqb [] _) in *. eexists. split; [reflexivity|]. intros k. unfold dmem. rewrite (G []).
  destruct (last_number items []) as [n0|] eqn:L0; cbn [option_map].
  - rewrite G. destruct (last_number items k) eqn:Lk; [reflexivity|]. destruct k; [congruence|reflexivity].
  - rewrite (dget_dset str_eqb str_eqb_spec). destruct (str_eqb k []) eqn:Ek.
    + apply str_eqb_eq in Ek as ->. now rewrite L0.
    + rewrite G. destruct (last_number items k); [reflexivity|]. destruct k; [discriminate|reflexivity].
Qed.

Lemma last_text_In (l : list (str * str)) k t : dget str_eqb (dict_of str_eqb l) k = Some t <->
  exists before after, l = before ++ (k, t) :: after /\ ~ In k (map fst after).
Proof.
  unfold dict_of. rewrite dget_dupdate_last. cbn [dget].
  assert (R : (match dget str_eqb (rev l) k with Some v => Some v | None => None end) = dget str_eqb (rev l) k) by now destruct (dget str_eqb (rev l) k).
  rewrite R. clear R. split.
  - intros H. assert (exists a b, rev l = a ++ (k, t) :: b /\ ~ In k (map fst a)) as (a & b & E & N).
    { clear - H. induction (rev l) as [|[x v] r IH]; [discriminate|]. cbn [dget] in H. destruct (str_eqb k x) eqn:E.
      - injection H as ->. apply str_eqb_eq in E as ->. now exists [], r.
      - destruct (IH H) as (a & b & -> & N). exists ((x, v) :: a), b. split; [reflexivity|]. intros [K|K]; [|now apply N]. cbn in K.
        apply str_eqb_neq in E. congruence. }
    exists (rev b), (rev a). split.
    + rewrite <- (rev_involutive l), E, rev_app_distr. cbn [rev]. now rewrite <- app_assoc.
    + rewrite map_rev, <- in_rev. exact N.
  - intros (before & after & -> & N). rewrite rev_app_distr. cbn [rev]. rewrite <- app_assoc. cbn [app].
    assert (N' : ~ In k (map fst (rev after))) by now rewrite map_rev, <- in_rev.
    revert N'. generalize (rev after). induction l as [|[x v] l IH]; cbn [app dget map fst]; intros N'; [now rewrite str_eqb_refl|].
    destruct (str_eqb k x) eqn:E; [apply str_eqb_eq in E; subst; exfalso; apply N'; now left|]. apply IH. intros I. apply N'. now right.
Qed.

Lemma pairs_back (l : list (str * str)) : Forall (fun kv => ~ In ":"%char (fst kv) /\ ~ In ":"%char (snd kv)) l ->
  pairs_of (map (fun kv => fst kv ++ $":" ++ snd kv) l) = Ok l.
Proof.
  induction 1 as [|[k v] l [N1 N2] _ IH]; [reflexivity|]. cbn [map pairs_of fst snd] in *. change (k ++ $":" ++ v) with (k ++ ":"%char :: v).
  rewrite split_app by assumption. rewrite split_no_sep by assumption. now rewrite IH.
Qed.

Lemma parse_accepts cores text : (exists d, parse_parallelization cores text = Ok d) <-> accepted text.
Proof.
  unfold parse_parallelization, accepted. split.
  - intros (d & H). revert H. destruct (isdigit text) eqn:E.
    + intros _. left. now apply isdigit_iff.
    + destruct (pairs_of (split "," text)) as [l|] eqn:P; [|discriminate]. destruct (counts_of cores (dict_of str_eqb l) []) as [r|] eqn:C; [|discriminate].
      intros _. right. apply counts_Ok in C. exists l. pose proof (pairs_complete _ _ P) as F.
      assert (M : split "," text = map (fun kv => fst kv ++ $":" ++ snd kv) l).
      { clear - F. induction F as [|p [k v] parts l [-> _] F IH]; [reflexivity|]. cbn [map fst snd]. f_equal. exact IH. }
      split; [|split; [|split]].
      * intros ->. apply (split_nonempty "," text). exact M.
      * change ($",") with ([","%char]). now rewrite <- M, join_split.
      * rewrite Forall_forall. intros [k v] I.
        assert (I' : In (k ++ $":" ++ v) (split "," text)) by (rewrite M; apply (in_map (fun kv => fst kv ++ $":" ++ snd kv) l (k, v)); exact I).
        apply split_In_no_sep in I'. rewrite !in_app_iff in I'. cbn [fst snd].
        assert (NV : ~ In ":"%char k /\ ~ In ":"%char v).
        { clear - P I. revert l P I. induction (split "," text) as [|p parts IH]; intros l P I; cbn [pairs_of] in P.
          - injection P as <-. destruct I.
          - destruct (split ":" p) as [|a [|b [|]]] eqn:S; try discriminate. destruct (pairs_of parts) as [l'|] eqn:Q; [|discriminate].
            injection P as <-. destruct I as [[= <- <-]|I]; [|now apply (IH l')].
            split; apply (split_In_no_sep ":" p); rewrite S; [now left|right; now left]. }
        tauto.
      * intros before after k t Hs N. apply isdigit_iff. rewrite Forall_forall in C. apply (C (k, t)).
        apply (dget_Some_In str_eqb str_eqb_spec). apply last_text_In. eauto.
  - intros [(n & H)|(l & Hne & -> & N & L)].
    + assert (E : isdigit text = true) by (apply isdigit_iff; eauto). rewrite E. cbn [counts_of]. rewrite E. eauto.
    + destruct (isdigit (join $"," (map (fun kv => fst kv ++ $":" ++ snd kv) l))) eqn:E.
      * exfalso. destruct l as [|[k v] l]; [congruence|].
        assert (I : In ":"%char (join $"," (map (fun kv => fst kv ++ $":" ++ snd kv) ((k, v) :: l)))).
        { cbn [map fst snd]. destruct (map _ l); cbn [join]; [apply in_or_app; right; now left|].
          apply in_or_app. left. apply in_or_app. right. now left. }
        apply isdigit_iff in E as (n & E). now apply (number_text_no ":" _ _ E).
      * change ($",") with ([","%char]). rewrite split_join.
        -- rewrite pairs_back.
           ++ rewrite (counts_spec cores (dict_of str_eqb l) []); [eauto|]. rewrite Forall_forall. intros [k t] I. cbn [snd].
              assert (ND : NoDup (dkeys (dict_of str_eqb l))) by (apply (NoDup_dupdate str_eqb str_eqb_spec); constructor).
              apply (NoDup_dget str_eqb str_eqb_spec) in I; [|exact ND]. apply last_text_In in I as (b & a & E1 & E2).
              apply isdigit_iff. now apply (L b a k t).
           ++ eapply Forall_impl; [|exact N]. cbn. tauto.
        -- destruct l; [congruence|discriminate].
        -- rewrite Forall_forall in N |- *. intros p I. apply in_map_iff in I as ([k v] & <- & I). apply N in I. cbn [fst snd] in *.
           rewrite !in_app_iff. intros [J|[[J|[]]|J]]; [tauto|discriminate|tauto].
Qed.

Lemma requested_get cores items d : (forall k, dget str_eqb d k = match last_number items k with Some n => Some (meant cores n) | None => match k with [] => Some cores | _ => None end end) ->
  forall names n, ~ In [] names -> requested cores items (names ++ [[]]) n -> get_first d (names ++ [[]]) = n.
Proof.
  intros G names. induction names as [|name names IH]; intros n Hn H; cbn [app get_first] in *.
  - rewrite G. inversion H as [|? ? m b a E N|? ? m N R]; subst.
    + assert (L : last_number (b ++ ([], m) :: a) [] = Some m) by (apply last_number_Some; eauto). now rewrite L.
    + apply last_number_None in N. rewrite N. now inversion R.
  - rewrite G. inversion H as [|? ? m b a E N|? ? m N R]; subst.
    + assert (L : last_number (b ++ (name, m) :: a) name = Some m) by (apply last_number_Some; eauto). now rewrite L.
    + apply last_number_None in N. rewrite N. destruct name as [|c name]; [exfalso; apply Hn; now left|]. apply IH; [|assumption].
      intros I. apply Hn. now right.
Qed.

(** ** Backends *)
Lemma names_rev texts names : names_in texts names -> prioritized_backends (Some texts) = rev names.
Proof.
  intros (lists & F & ->). unfold prioritized_backends. f_equal.
  induction F as [|text l texts lists (Hne & Hc & ->) F IH]; [reflexivity|]. cbn [flat_map concat]. rewrite IH. f_equal.
  change ($",") with ([","%char]). now apply split_join.
Qed.
Lemma last_first {T} (P : T -> Prop) l x : last_in P l x -> first_in P (rev l) x.
Proof.
  intros (before & after & -> & Px & F). exists (rev after), (rev before). rewrite rev_app_distr. cbn [rev]. rewrite <- app_assoc.
  split; [reflexivity|]. split; [exact Px|]. now apply Forall_rev.
Qed.

Lemma index_in_Some x l i : index_in x l = Some i <-> exists before after, l = before ++ x :: after /\ ~ In x before /\ length before = i.
Proof.
  revert i. induction l as [|y l IH]; intros i; cbn [index_in].
  - split; [discriminate|]. intros ([|] & ? & ? & _); discriminate.
  - destruct (str_eqb x y) eqn:E.
    + apply str_eqb_eq in E as <-. split.
      * intros [= <-]. exists [], l. auto.
      * intros ([|z b] & a & E & N & <-); [reflexivity|]. injection E as <- _. exfalso. apply N. now left.
    + apply str_eqb_neq in E. destruct (index_in x l) as [j|] eqn:J; cbn [option_map]; split.
      * intros [= <-]. destruct (proj1 (IH j) eq_refl) as (b & a & -> & N & <-). exists (y :: b), a. split; [reflexivity|]. split; [|reflexivity].
        intros [K|K]; [congruence|now apply N].
      * intros ([|z b] & a & E' & N & <-); injection E' as <- E'; [congruence|]. cbn. f_equal.
        assert (H : Some j = Some (length b)) by (apply IH; exists b, a; split; [exact E'|]; split; [|reflexivity]; intros K; apply N; now right).
        congruence.
      * discriminate.
      * intros ([|z b] & a & E' & N & <-); injection E' as <- E'; [congruence|].
        assert (H : None = Some (length b)) by (apply IH; exists b, a; split; [exact E'|]; split; [|reflexivity]; intros K; apply N; now right).
        discriminate.
Qed.
Lemma index_in_None x l : index_in x l = None <-> ~ In x l.
Proof.
  split.
  - intros E I. apply in_split in I as (b & a & ->). revert E. clear. induction b as [|y b IH]; cbn [app index_in]; [now rewrite str_eqb_refl|].
    destruct (str_eqb x y); [discriminate|]. destruct (index_in x (b ++ x :: a)); [discriminate|]. intros _. now apply IH.
  - intros N. destruct (index_in x l) as [i|] eqn:E; [|reflexivity]. apply index_in_Some in E as (b & a & -> & _). exfalso. apply N. apply in_or_app. right. now left.
Qed.

(** a comes before any b *)
Lemma index_before a b l : a <> b -> (match index_in a l, index_in b l with Some i, Some r => (i <? r)%nat | Some _, None => true | None, _ => false end) = true <->
  exists before after, l = before ++ a :: after /\ ~ In b before.
Proof.
  intros Hab. destruct (index_in a l) as [i|] eqn:A.
  - destruct (index_in b l) as [r|] eqn:B.
    + rewrite Nat.ltb_lt. apply index_in_Some in A as (b1 & a1 & E1 & N1 & <-). apply index_in_Some in B as (b2 & a2 & E2 & N2 & <-). split.
      * intros L. exists b1, a1. split; [exact E1|]. intros I. assert (P : b2 = firstn (length b2) l) by (rewrite E2, firstn_app, Nat.sub_diag, firstn_all; cbn; now rewrite app_nil_r).
        apply N2. rewrite P, E1, firstn_app. apply in_or_app. left. rewrite firstn_all2 by lia. exact I.
      * intros (b3 & a3 & E3 & N3). assert (length b1 <= length b3)%nat.
        { destruct (Nat.le_gt_cases (length b1) (length b3)) as [|G]; [assumption|]. exfalso. apply N1.
          assert (P : b1 = firstn (length b1) l) by (rewrite E1, firstn_app, Nat.sub_diag, firstn_all; cbn; now rewrite app_nil_r).
          rewrite P, E3, firstn_app. apply in_or_app. right. destruct (length b1 - length b3)%nat eqn:Q; [lia|]. now left. }
        destruct (Nat.le_gt_cases (length b2) (length b3)) as [G|G]; [|lia]. exfalso.
        assert (P : nth_error l (length b2) = Some b) by (rewrite E2, nth_error_app2, Nat.sub_diag by lia; reflexivity).
        rewrite E3 in P. destruct (Nat.eq_dec (length b2) (length b3)) as [Q|Q].
        -- rewrite Q, nth_error_app2, Nat.sub_diag in P by lia. cbn in P. congruence.
        -- rewrite nth_error_app1 in P by lia. apply nth_error_In in P. now apply N3.
    + split; [|reflexivity]. intros _. apply index_in_None in B. apply index_in_Some in A as (b1 & a1 & -> & _). exists b1, a1. split; [reflexivity|].
      intros I. apply B. apply in_or_app. now left.
  - split; [discriminate|]. intros (b1 & a1 & -> & _). apply index_in_None in A. exfalso. apply A. apply in_or_app. right. now left.
Qed.

Lemma use_rapidgzip_iff loaded spacing prioritized f :
  use_rapidgzip loaded spacing prioritized f = true <->
  In $"rapidgzip" loaded /\ real_file f = true /\ 4 * spacing <= f_size f /\
  ~ exists before after, prioritized = before ++ $"indexed_gzip" :: after /\ ~ In $"rapidgzip" before.
Proof.
  unfold use_rapidgzip. rewrite <- (index_before $"indexed_gzip" $"rapidgzip" prioritized) by discriminate.
  assert (M : existsb (str_eqb $"rapidgzip") loaded = true <-> In $"rapidgzip" loaded).
  { rewrite existsb_exists. split; [intros (x & I & E); apply str_eqb_eq in E; now subst|intros I; exists $"rapidgzip"; split; [exact I|apply str_eqb_refl]]. }
  destruct (existsb (str_eqb $"rapidgzip") loaded); cbn [negb]; [|split; [discriminate|intros (I & _); apply M in I; discriminate]].
  assert (I : In $"rapidgzip" loaded) by now apply M. clear M.
  assert (G : (real_file f && (4 * spacing <=? f_size f) = true) <-> real_file f = true /\ 4 * spacing <= f_size f).
  { rewrite andb_true_iff, Z.leb_le. reflexivity. }
  destruct (index_in $"indexed_gzip" prioritized) as [i|], (index_in $"rapidgzip" prioritized) as [r|].
  - destruct (i <? r)%nat; [split; [discriminate|tauto]|]. rewrite G. intuition congruence.
  - split; [discriminate|tauto].
  - rewrite G. intuition congruence.
  - rewrite G. intuition congruence.
Qed.

(** ** Paths *)
Lemma count_iff l : any_twice l = false <-> NoDup l.
Proof.
  assert (C : forall x l, (count x l = 0)%nat <-> ~ In x l).
  { intros x l0. unfold count. induction l0 as [|y l0 IH]; cbn [filter length]; [tauto|]. destruct (str_eqb x y) eqn:E; cbn [length].
    - apply str_eqb_eq in E as ->. split; [discriminate|]. intros N. exfalso. apply N. now left.
    - apply str_eqb_neq in E. rewrite IH. cbn. intuition congruence. }
  unfold any_twice. split.
  - intros H. induction l as [|x l IH]; [constructor|].
    assert (H' : forall y, In y (x :: l) -> (count y (x :: l) <= 1)%nat).
    { intros y I. destruct (Nat.le_gt_cases (count y (x :: l)) 1) as [|G]; [assumption|]. exfalso.
      assert (T : existsb (fun path => (1 <? count path (x :: l))%nat) (x :: l) = true) by (apply existsb_exists; exists y; split; [exact I|now apply Nat.ltb_lt]).
      congruence. }
    constructor.
    + apply C. specialize (H' x (or_introl eq_refl)). unfold count in *. cbn [filter] in H'. rewrite str_eqb_refl in H'. cbn [length] in H'. lia.
    + apply IH. destruct (existsb _ l) eqn:E; [|reflexivity]. exfalso. apply existsb_exists in E as (y & I & T). apply Nat.ltb_lt in T.
      specialize (H' y (or_intror I)). unfold count in *. cbn [filter] in H'. destruct (str_eqb y x); cbn [length] in H'; lia.
  - intros N. destruct (existsb _ l) eqn:E; [|reflexivity]. exfalso. apply existsb_exists in E as (y & I & T). apply Nat.ltb_lt in T.
    revert I T. induction N as [|x l N1 N2 IH]; [intros []|]. unfold count in *. cbn [filter]. destruct (str_eqb y x) eqn:E; cbn [length].
    + apply str_eqb_eq in E as ->. apply C in N1. unfold count in N1. lia.
    + apply str_eqb_neq in E. intros [K|K]; [congruence|now apply IH].
Qed.

Section Checked.
  Variable check : str -> res str.
  (** The loop appends the squeezed remainder to what is there. *)
  Lemma checked_spec args fixed : Forall2 (fun p x => check p = Ok x) args fixed ->
    forall last sources r, squeezed (last :: fixed) r -> checked check args (last :: sources) = Ok (rev sources ++ r).
  Proof.
    induction 1 as [|p x args fixed E F IH]; intros last sources r S; cbn [checked].
    - inversion S; subst. cbn [rev]. reflexivity.
    - rewrite E. inversion S as [| |? ? ? S'|? ? ? ? N S']; subst.
      + rewrite str_eqb_refl. now apply IH.
      + assert (Q : str_eqb last x = false) by now apply str_eqb_neq. rewrite Q. rewrite (IH _ _ _ S'). cbn [rev]. now rewrite <- app_assoc.
  Qed.
  Lemma checked_nil args fixed r : Forall2 (fun p x => check p = Ok x) args fixed -> squeezed fixed r -> checked check args [] = Ok r.
  Proof.
    intros [|p x args' fixed' E F] S; cbn [checked]; [now inversion S|]. rewrite E. now apply (checked_spec _ _ F x []).
  Qed.
  Lemma checked_Ok args : forall sources r, checked check args sources = Ok r -> exists fixed, Forall2 (fun p x => check p = Ok x) args fixed.
  Proof.
    induction args as [|p args IH]; intros sources r; cbn [checked]; [exists []; constructor|]. destruct (check p) as [x|] eqn:E; [|discriminate].
    intros H. assert (exists s, checked check args s = Ok r) as (s & H').
    { destruct sources as [|y s]; [eauto|]. destruct (str_eqb y x); eauto. }
    destruct (IH _ _ H') as (fixed & F). exists (x :: fixed). now constructor.
  Qed.
End Checked.
Lemma squeezed_exists l : exists r, squeezed l r.
Proof.
  induction l as [|x l (r & IH)]; [exists []; constructor|]. destruct l as [|y l]; [exists [x]; constructor|].
  destruct (str_eqb_spec x y) as [->|N]; [exists r; now constructor|exists (x :: r); now constructor].
Qed.
Lemma squeezed_fun l r r' : squeezed l r -> squeezed l r' -> r = r'.
Proof.
  intros S. revert r'. induction S; intros r' S'; inversion S'; subst; try reflexivity; try congruence; try (now apply IHS).
  f_equal. now apply IHS.
Qed.

(** ** Lists *)
Lemma remove_spec l : forall seen, exists r, remove_duplicates_stable l seen = r /\
  (forall x, In x r <-> In x l /\ ~ In x seen) /\ NoDup r.
Proof.
  induction l as [|x l IH]; intros seen; cbn [remove_duplicates_stable].
  - exists []. split; [reflexivity|]. split; [cbn; tauto|constructor].
  - destruct (existsb (str_eqb x) seen) eqn:E.
    + assert (I : In x seen) by (apply existsb_exists in E as (y & I & E); apply str_eqb_eq in E; now subst).
      destruct (IH seen) as (r & -> & R1 & R2). exists r. split; [reflexivity|]. split; [|exact R2]. intros y. rewrite R1. cbn. intuition congruence.
    + assert (I : ~ In x seen).
      { intros I. assert (T : existsb (str_eqb x) seen = true) by (apply existsb_exists; exists x; split; [exact I|apply str_eqb_refl]). congruence. }
      destruct (IH (x :: seen)) as (r & -> & R1 & R2). exists (x :: r). split; [reflexivity|]. split.
      * intros y. cbn [In]. rewrite R1. cbn [In]. split; [intros [->|[? ?]]; tauto|]. intros [[->|K] N]; [now left|].
        destruct (str_eqb_spec x y) as [->|Q]; [now left|right]. intuition congruence.
      * constructor; [|exact R2]. rewrite R1. cbn [In]. tauto.
Qed.
Lemma remove_snoc l : forall x seen, remove_duplicates_stable (l ++ [x]) seen =
  remove_duplicates_stable l seen ++ (if existsb (str_eqb x) (seen ++ l) then [] else [x]).
Proof.
  assert (EA : forall x a b, existsb (str_eqb x) (a ++ b) = existsb (str_eqb x) a || existsb (str_eqb x) b) by (intros; apply existsb_app).
  induction l as [|y l IH]; intros x seen; cbn [remove_duplicates_stable app].
  - rewrite app_nil_r. now destruct (existsb (str_eqb x) seen).
  - rewrite EA. cbn [existsb]. destruct (existsb (str_eqb y) seen) eqn:E.
    + rewrite IH, EA. f_equal. destruct (str_eqb x y) eqn:Q; [|reflexivity]. apply str_eqb_eq in Q as ->. rewrite E. cbn. reflexivity.
    + rewrite IH. cbn [app existsb]. rewrite EA. f_equal. f_equal. now destruct (existsb (str_eqb x) seen), (str_eqb x y).
Qed.
Lemma order_remove l r : order_of l r -> remove_duplicates_stable l [] = r.
Proof.
  induction 1 as [|l r x H IH N|l r x H IH I]; [reflexivity| |]; rewrite remove_snoc, IH; cbn [app].
  - destruct (existsb (str_eqb x) l) eqn:E; [|reflexivity]. apply existsb_exists in E as (y & I & E). apply str_eqb_eq in E. subst. contradiction.
  - assert (T : existsb (str_eqb x) l = true) by (apply existsb_exists; exists x; split; [exact I|apply str_eqb_refl]). rewrite T. apply app_nil_r.
Qed.
Lemma order_exists l : exists r, order_of l r.
Proof.
  induction l as [|x l (r & IH)] using rev_ind; [exists []; constructor|]. destruct (in_dec (list_eq_dec ascii_dec) x l) as [I|N];
    [exists r; now constructor|exists (r ++ [x]); now constructor].
Qed.

(** ** The decompressor *)
Lemma dec_first {T} (P : T -> Prop) (dec : forall x, P x \/ ~ P x) l : (exists x, first_in P l x) \/ Forall (fun x => ~ P x) l.
Proof.
  induction l as [|x l IH]; [right; constructor|]. destruct (dec x) as [Px|Nx]; [left; exists x; exists [], l; auto|].
  destruct IH as [(y & b & a & -> & Py & F)|F]; [left; exists y; exists (x :: b), a; auto|right; now constructor].
Qed.
Lemma can_dec compressions loaded id n : (exists b, can_undo compressions loaded id (n, b)) \/ ~ (exists b, can_undo compressions loaded id (n, b)).
Proof.
  pose (ok := existsb (fun x => str_eqb n (fst x) && existsb (Z.eqb id) (c_formats (snd x)) && forallb (fun m => existsb (str_eqb m) loaded) (c_modules (snd x))) compressions).
  destruct ok eqn:E; [left|right]; unfold ok in E.
  - apply existsb_exists in E as ([m b] & I & E). cbn [fst snd] in E. rewrite !andb_true_iff in E. destruct E as ((E1 & E2) & E3). apply str_eqb_eq in E1 as <-.
    exists b. split; [exact I|]. cbn [snd]. split.
    + apply existsb_exists in E2 as (z & J & E2). apply Z.eqb_eq in E2. now subst.
    + intros m J. rewrite forallb_forall in E3. apply E3 in J. apply existsb_exists in J as (y & J & E4). apply str_eqb_eq in E4. now subst.
  - intros (b & I & F & M). cbn [snd] in *. assert (T : existsb (fun x => str_eqb n (fst x) && existsb (Z.eqb id) (c_formats (snd x)) && forallb (fun m => existsb (str_eqb m) loaded) (c_modules (snd x))) compressions = true); [|congruence].
    apply existsb_exists. exists (n, b). split; [exact I|]. cbn [fst snd]. rewrite str_eqb_refl. cbn [andb]. apply andb_true_iff. split.
    + apply existsb_exists. exists id. split; [exact F|apply Z.eqb_refl].
    + apply forallb_forall. intros m J. apply existsb_exists. exists m. split; [now apply M|apply str_eqb_refl].
Qed.
