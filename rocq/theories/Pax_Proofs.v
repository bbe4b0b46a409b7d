From Coq Require Import Ascii String.
From Verif Require Import PyBase PyDict PyStr PyInt Pax_Model Pax_Spec.
Local Open Scope Z_scope.

(** ** Base64 *)
Lemma code_range c : 0 <= code c < 256.
Proof. unfold code. pose proof (nat_ascii_bounded c). lia. Qed.
Lemma byte_code c : byte (code c) = c.
Proof. unfold byte, code. rewrite Nat2Z.id. apply ascii_nat_embedding. Qed.
Lemma letter_value_letter n : 0 <= n < 64 -> letter_value (letter n) = Some n /\ char_eqb (letter n) "=" = false.
Proof.
  intros H. assert (T : forall m, (m < 64)%nat -> letter_value (letter (Z.of_nat m)) = Some (Z.of_nat m) /\ char_eqb (letter (Z.of_nat m)) "=" = false).
  { do 64 (destruct m as [|m]; [intros _; vm_compute; auto|]). lia. }
  specialize (T (Z.to_nat n) ltac:(lia)). now rewrite Z2Nat.id in T by lia.
Qed.
Lemma a2b_letter n q l p t : 0 <= n < 64 -> a2b q l p (letter n :: t) =
  let emit b r := match r with Ok s => Ok (byte b :: s) | Err e => Err e end in
  if q =? 0 then a2b 1 n 0 t
  else if q =? 1 then emit (l * 4 + n / 16) (a2b 2 (n mod 16) 0 t)
  else if q =? 2 then emit (l * 16 + n / 4) (a2b 3 (n mod 4) 0 t)
  else emit (l * 64 + n) (a2b 0 0 0 t).
Proof. intros H. cbn [a2b]. destruct (letter_value_letter n H) as [-> ->]. reflexivity. Qed.

Ltac letters := match goal with |- context [a2b _ _ _ (letter ?n :: _)] => rewrite (a2b_letter n) by (Z.div_mod_to_equations; lia); cbn [Z.eqb Pos.eqb] end.
Lemma first_byte a : code a / 4 * 4 + code a mod 4 * 16 / 16 = code a.
Proof. pose proof (code_range a). Z.div_mod_to_equations. lia. Qed.
Lemma decode_spec data text : base64 data text -> forall pads, len text mod 4 + Z.of_nat pads = 0 \/ len text mod 4 + Z.of_nat pads = 4 ->
  a2b 0 0 0 (text ++ repeat "="%char pads) = Ok data.
Proof.
  induction 1 as [|a|a b|a b c s t H IH]; intros pads Hp.
  - change (len []) with 0 in Hp. change (0 mod 4) with 0 in Hp. assert (P : pads = 0%nat \/ pads = 4%nat) by lia. destruct P as [->| ->]; reflexivity.
  - pose proof (code_range a). change (len _ mod 4) with 2 in Hp. assert (P : pads = 2%nat) by lia. subst pads. cbn [app repeat].
    letters. letters. cbn [a2b char_eqb Ascii.eqb Bool.eqb andb Z.leb Z.compare Z.add Pos.add Pos.compare Pos.compare_cont].
    rewrite first_byte, byte_code. reflexivity.
  - pose proof (code_range a). pose proof (code_range b). change (len _ mod 4) with 3 in Hp. assert (P : pads = 1%nat) by lia. subst pads. cbn [app repeat].
    letters. letters. letters. cbn [a2b char_eqb Ascii.eqb Bool.eqb andb Z.leb Z.compare Z.add Pos.add Pos.compare Pos.compare_cont].
    replace (code a / 4 * 4 + (code a mod 4 * 16 + code b / 16) / 16) with (code a) by (Z.div_mod_to_equations; lia).
    replace ((code a mod 4 * 16 + code b / 16) mod 16 * 16 + code b mod 16 * 4 / 4) with (code b) by (Z.div_mod_to_equations; lia).
    now rewrite !byte_code.
  - pose proof (code_range a). pose proof (code_range b). pose proof (code_range c). cbn [app].
    letters. letters. letters. letters. rewrite IH.
    + replace (code a / 4 * 4 + (code a mod 4 * 16 + code b / 16) / 16) with (code a) by (Z.div_mod_to_equations; lia).
      replace ((code a mod 4 * 16 + code b / 16) mod 16 * 16 + (code b mod 16 * 4 + code c / 64) / 4) with (code b) by (Z.div_mod_to_equations; lia).
      replace ((code b mod 16 * 4 + code c / 64) mod 4 * 64 + code c mod 64) with (code c) by (Z.div_mod_to_equations; lia).
      now rewrite !byte_code.
    + rewrite !len_cons in Hp. replace (1 + (1 + (1 + (1 + len t)))) with (len t + 1 * 4) in Hp by lia. now rewrite Z.mod_add in Hp by lia.
Qed.
Lemma decode_unpadded_spec data text : base64 data text -> decode_unpadded_base64 text = Ok data.
Proof.
  intros H. unfold decode_unpadded_base64, b64decode. apply decode_spec; [assumption|]. pose proof (Z.mod_pos_bound (len text) 4 ltac:(lia)).
  rewrite Z2Nat.id by (apply Z.mod_pos_bound; lia). destruct (Z.eq_dec (len text mod 4) 0) as [->|].
  - now left.
  - right. rewrite (Z.mod_small (4 - _)) by lia. lia.
Qed.

(** ** Percent encoding *)
Lemma hex_value_digit n c : 0 <= n < 16 -> hex_digit n c -> hex_value c = Some n.
Proof.
  intros H. assert (T : forall m, (m < 16)%nat -> hex_digit (Z.of_nat m) c -> hex_value c = Some (Z.of_nat m)).
  { do 16 (destruct m as [|m]; [intros _ [->| ->]; reflexivity|]). lia. }
  specialize (T (Z.to_nat n) ltac:(lia)). now rewrite Z2Nat.id in T by lia.
Qed.
Lemma unquote_spec s t : quoted s t -> unquote_to_bytes t = s.
Proof.
  induction 1 as [|c s t Hc H IH|c h l s t Hh Hl H IH]; [reflexivity| |].
  - cbn [unquote_to_bytes]. destruct (char_eqb_spec c "%"); [congruence|]. now rewrite IH.
  - pose proof (code_range c). cbn [unquote_to_bytes]. change (char_eqb "%" "%") with true. cbn match.
    rewrite (hex_value_digit (code c / 16)), (hex_value_digit (code c mod 16)) by (assumption || (Z.div_mod_to_equations; lia)).
    rewrite IH. f_equal. rewrite <- Z.div_mod by lia. apply byte_code.
Qed.
Lemma unquote_plain s t : quoted s t -> existsb (char_eqb "%") t = false -> t = s.
Proof.
  induction 1 as [|c s t Hc H IH|c h l s t Hh Hl H IH]; intros E; [reflexivity| |discriminate].
  cbn [existsb] in E. apply orb_false_iff in E as [_ E]. now rewrite IH.
Qed.

Lemma without_spec p k n : without p k = Some n <-> k = p ++ n.
Proof.
  unfold without. destruct (starts_with p k) eqn:E.
  - apply starts_with_spec in E as (t & ->). rewrite skipn_app, skipn_all, Nat.sub_diag. cbn [app skipn]. split; [intros [= ->]; reflexivity|].
    intros E. apply app_inv_head in E. now subst.
  - split; [discriminate|]. intros ->. now rewrite starts_with_app in E.
Qed.
Lemma without_None p k : without p k = None -> forall n, k <> p ++ n.
Proof. intros H n ->. rewrite (proj2 (without_spec p (p ++ n) n) eq_refl) in H. discriminate. Qed.

Section Xattrs.
  Variable replace_invalid : str -> str.
  Notation unquote := (unquote replace_invalid).
  Lemma unquote_quoted s t : quoted s t -> replace_invalid s = s -> unquote t = s.
  Proof.
    intros H V. unfold Pax_Model.unquote. destruct (existsb _ t) eqn:E; [now rewrite (unquote_spec s t H)|now apply unquote_plain].
  Qed.

  (** The value that the dictionaries hold. *)
  Lemma schily_spec h : NoDup (map fst h) -> forall name,
    NoDup (dkeys (schily_xattrs h)) /\ dget str_eqb (schily_xattrs h) name = dget str_eqb h (schily ++ name).
  Proof.
    intros Hn name. unfold schily_xattrs.
    assert (G : forall (l d : list (str * str)), NoDup (map fst l) -> NoDup (dkeys d) ->
      let d' := fold_left (fun d '(key, value) => match without schily key with Some name => dset str_eqb d name value | None => d end) l d in
      NoDup (dkeys d') /\ dget str_eqb d' name = match dget str_eqb l (schily ++ name) with Some v => Some v | None => dget str_eqb d name end).
    { clear. induction l as [|[k v] l IH]; intros d Hl Hd; [cbn; auto|]. cbn [map fst] in Hl. apply NoDup_cons_iff in Hl as [Hk Hl].
      cbn [fold_left dget]. cbv zeta in *. destruct (without schily k) as [n|] eqn:W.
      - apply without_spec in W. subst k. destruct (IH (dset str_eqb d n v) Hl (NoDup_dset str_eqb str_eqb_spec d n v Hd)) as [I1 I2].
        split; [exact I1|]. rewrite I2. destruct (str_eqb_spec (schily ++ name) (schily ++ n)) as [E|E].
        + apply app_inv_head in E. subst n. rewrite (proj2 (dget_None str_eqb str_eqb_spec l (schily ++ name)) Hk).
          rewrite (dget_dset_same str_eqb str_eqb_spec). reflexivity.
        + destruct (dget str_eqb l (schily ++ name)); [reflexivity|]. apply (dget_dset_other str_eqb str_eqb_spec). intros ->. now apply E.
      - destruct (IH d Hl Hd) as [I1 I2]. split; [exact I1|]. rewrite I2.
        destruct (str_eqb_spec (schily ++ name) k) as [E|E]; [|reflexivity]. exfalso. now apply (without_None _ _ W name). }
    destruct (G h [] Hn (NoDup_nil _)) as [G1 G2]. split; [exact G1|]. rewrite G2. now destruct (dget str_eqb h (schily ++ name)).
  Qed.

  Lemma libarchive_spec (attrs : list (str * str)) : (forall name value, In (name, value) attrs -> replace_invalid name = name) -> NoDup (map fst attrs) ->
    forall h d, (forall q b, In (libarchive ++ q, b) h -> exists name value, In (name, value) attrs /\ quoted name q /\ base64 value b) ->
    (forall name value, dget str_eqb d name = Some value -> In (name, value) attrs) -> NoDup (dkeys d) ->
    exists d', libarchive_xattrs replace_invalid h d = Ok d' /\ NoDup (dkeys d') /\
      (forall name value, dget str_eqb d' name = Some value -> In (name, value) attrs) /\
      (forall name, In name (dkeys d) -> In name (dkeys d')) /\
      (forall name value q b, In (libarchive ++ q, b) h -> quoted name q -> base64 value b -> In (name, value) attrs -> In name (dkeys d')).
  Proof.
    intros Hv Hnd. induction h as [|[k v] h IH]; intros d Hh Hd Hn.
    - exists d. cbn. repeat split; auto. intros name value q b [].
    - cbn [libarchive_xattrs]. destruct (without libarchive k) as [q|] eqn:W.
      + apply without_spec in W. subst k. destruct (Hh q v (or_introl eq_refl)) as (name & value & I & Q & B).
        rewrite (decode_unpadded_spec _ _ B), (unquote_quoted _ _ Q (Hv _ _ I)).
        destruct (IH (dset str_eqb d name value)) as (d' & E & N & S & K & C).
        * intros q' b' I'. apply Hh. now right.
        * intros n w. rewrite (dget_dset str_eqb str_eqb_spec). destruct (str_eqb_spec n name) as [->|]; [intros [= <-]; assumption|apply Hd].
        * now apply (NoDup_dset str_eqb str_eqb_spec).
        * exists d'. split; [exact E|]. split; [exact N|]. split; [exact S|]. split.
          -- intros n Hn'. apply K. apply (In_dkeys_dset str_eqb str_eqb_spec). now right.
          -- intros n w q' b' [I'|I'] Q' B' A'.
             ++ injection I' as E1 E2. subst b'. subst q'.
                assert (n = name) by (rewrite <- (unquote_spec _ _ Q'), <- (unquote_spec _ _ Q); reflexivity). subst n.
                apply K. apply (In_dkeys_dset str_eqb str_eqb_spec). now left.
             ++ eapply C; eassumption.
      + destruct (IH d) as (d' & E & N & S & K & C); [intros q' b' I'; apply Hh; now right|assumption|assumption|].
        exists d'. repeat (split; [assumption|]). intros n w q' b' [I'|I'] Q' B' A'; [|eapply C; eassumption].
        injection I' as -> _. exfalso. now apply (without_None _ _ W q').
  Qed.

  Lemma tar_xattrs_spec h attrs : holds_xattrs h attrs -> (forall name value, In (name, value) attrs -> replace_invalid name = name) ->
    exists d, tar_xattrs replace_invalid h = Ok d /\ NoDup (dkeys d) /\ forall name value, In (name, value) d <-> In (name, value) attrs.
  Proof.
    intros (H1 & H2 & H3 & Hnh & Hna) Hv. unfold tar_xattrs.
    destruct (libarchive_spec attrs Hv Hna h [] H2) as (d & -> & N & S & _ & C); [discriminate|constructor|].
    destruct (schily_spec h Hnh []) as [Ns _].
    exists (dupdate str_eqb (schily_xattrs h) d). split; [reflexivity|].
    pose proof (NoDup_dupdate str_eqb str_eqb_spec (schily_xattrs h) d Ns) as Nu. split; [exact Nu|].
    assert (G : forall name value, dget str_eqb (dupdate str_eqb (schily_xattrs h) d) name = Some value <-> In (name, value) attrs).
    { intros name value. rewrite (dget_dupdate str_eqb str_eqb_spec) by assumption. split.
      - destruct (dget str_eqb d name) as [w|] eqn:E; [intros [= <-]; now apply S|].
        rewrite (proj2 (schily_spec h Hnh name)). intros E'. apply (dget_Some_In str_eqb str_eqb_spec) in E'. now apply H1.
      - intros I. destruct (dget str_eqb d name) as [w|] eqn:E.
        + apply S in E. f_equal. assert (F : dget str_eqb attrs name = Some w) by now apply (NoDup_dget str_eqb str_eqb_spec).
          assert (F' : dget str_eqb attrs name = Some value) by now apply (NoDup_dget str_eqb str_eqb_spec). congruence.
        + destruct (H3 name value I) as [I'|(q & b & I' & Q & B)].
          * rewrite (proj2 (schily_spec h Hnh name)). now apply (NoDup_dget str_eqb str_eqb_spec).
          * exfalso. apply (dget_None str_eqb str_eqb_spec) in E. apply E. eapply C; eassumption. }
    intros name value. rewrite <- G. split; [now apply (NoDup_dget str_eqb str_eqb_spec)|apply (dget_Some_In str_eqb str_eqb_spec)].
  Qed.
End Xattrs.
