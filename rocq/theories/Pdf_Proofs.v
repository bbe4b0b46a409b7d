From Coq Require Import Ascii String.
From Verif Require Import PyBase PyDict PyStr Pdf_Model Pdf_Spec.
Local Open Scope Z_scope.

Section Pdf.
  Context {A : Type}.
  Variable digits : Z -> str.
  Implicit Types d : @document A.

  Lemma emit_sound d objects : forall offset offsets l name k, emit_loop d objects offset offsets = Ok l -> In (name, k) l ->
    In (name, AtNumber k) objects \/ exists r, In (name, AtRef r) objects /\ xref_of d r = Some k.
  Proof.
    induction objects as [|[nm f] objects IH]; intros offset offsets l name k E Hi; cbn [emit_loop] in E.
    - injection E as <-. destruct Hi.
    - assert (Lift : forall o os l', emit_loop d objects o os = Ok l' -> In (name, k) l' ->
          In (name, AtNumber k) ((nm, f) :: objects) \/ exists r, In (name, AtRef r) ((nm, f) :: objects) /\ xref_of d r = Some k).
      { intros o os l' E' H'. destruct (IH o os l' name k E' H') as [H|(r & H & X)]; [left; now right|right].
        exists r. split; [now right|assumption]. }
      destruct f as [n|r].
      + destruct offset as [o|]; [|discriminate]. destruct (existsb (Z.eqb o) offsets).
        * eapply Lift; eassumption.
        * destruct (emit_loop d objects (Some o) (o :: offsets)) as [l'|e] eqn:E'; [|discriminate]. injection E as <-.
          destruct Hi as [[= <- <-]|Hi]; [left; now left|]. eapply Lift; eassumption.
      + destruct (xref_of d r) as [o|] eqn:X; [|discriminate]. destruct (existsb (Z.eqb o) offsets).
        * eapply Lift; eassumption.
        * destruct (emit_loop d objects (Some o) (o :: offsets)) as [l'|e] eqn:E'; [|discriminate]. injection E as <-.
          destruct Hi as [[= <- <-]|Hi]; [right; exists r; split; [now left|assumption]|]. eapply Lift; eassumption.
  Qed.

  (** Once an object has been passed, the variable holds a position already taken: no number is offered any more. *)
  Lemma emit_no_numbers d objects : forall o offsets l name k, In o offsets -> emit_loop d objects (Some o) offsets = Ok l -> In (name, k) l ->
    exists r, In (name, AtRef r) objects /\ xref_of d r = Some k.
  Proof.
    induction objects as [|[nm f] objects IH]; intros o offsets l name k Ho E Hi; cbn [emit_loop] in E.
    - injection E as <-. destruct Hi.
    - assert (Lift : forall o' os l', In o' os -> emit_loop d objects (Some o') os = Ok l' -> In (name, k) l' ->
          exists r, In (name, AtRef r) ((nm, f) :: objects) /\ xref_of d r = Some k).
      { intros o' os l' H1 H2 H3. destruct (IH o' os l' name k H1 H2 H3) as (r & H & X). exists r. split; [now right|assumption]. }
      destruct f as [n|r].
      + assert (Ex : existsb (Z.eqb o) offsets = true) by (apply existsb_exists; exists o; split; [assumption|apply Z.eqb_refl]).
        rewrite Ex in E. eapply Lift; eassumption.
      + destruct (xref_of d r) as [p|] eqn:X; [|discriminate]. destruct (existsb (Z.eqb p) offsets) eqn:Ex.
        * apply existsb_exists in Ex as (q & Hq & Eq). apply Z.eqb_eq in Eq. subst q. eapply Lift; eassumption.
        * destruct (emit_loop d objects (Some p) (p :: offsets)) as [l'|e] eqn:E'; [|discriminate]. injection E as <-.
          destruct Hi as [[= <- <-]|Hi]; [exists r; split; [now left|assumption]|]. eapply Lift; [|eassumption|assumption]. now left.
  Qed.

  Lemma emit_complete d objects : forall offset offsets l name r k,
    emit_loop d objects offset offsets = Ok l -> In (name, AtRef r) objects -> xref_of d r = Some k ->
    (forall o, offset = Some o -> o = k -> In k offsets) -> In k offsets \/ exists name', In (name', k) l.
  Proof.
    induction objects as [|[nm f] objects IH]; intros offset offsets l name r k E Hi X Hk; cbn [emit_loop] in E; [destruct Hi|].
    destruct f as [n|p].
    - destruct Hi as [[=]|Hi]. destruct offset as [o|]; [|discriminate]. destruct (existsb (Z.eqb o) offsets) eqn:Ex.
      + eapply IH; eassumption.
      + destruct (emit_loop d objects (Some o) (o :: offsets)) as [l'|e] eqn:E'; [|discriminate]. injection E as <-.
        assert (No : o <> k).
        { intros ->. specialize (Hk k eq_refl eq_refl). assert (existsb (Z.eqb k) offsets = true) by
            (apply existsb_exists; exists k; split; [assumption|apply Z.eqb_refl]). congruence. }
        destruct (IH (Some o) (o :: offsets) l' name r k E' Hi X) as [[H|H]|(nm' & H)]; [intros o' [= <-] ->; congruence|congruence|now left|].
        right. exists nm'. now right.
    - destruct (xref_of d p) as [o|] eqn:Xp; [|discriminate]. destruct (existsb (Z.eqb o) offsets) eqn:Ex.
      + apply existsb_exists in Ex as (q & Hq & Eq). apply Z.eqb_eq in Eq. subst q.
        destruct Hi as [[= -> ->]|Hi]; [left; congruence|]. eapply IH; try eassumption. intros o' [= <-] <-. assumption.
      + destruct (emit_loop d objects (Some o) (o :: offsets)) as [l'|e] eqn:E'; [|discriminate]. injection E as <-.
        destruct Hi as [[= -> ->]|Hi]; [right; exists name; left; congruence|].
        destruct (IH (Some o) (o :: offsets) l' name r k E' Hi X) as [[H|H]|(nm' & H)].
        * intros o' [= <-] <-. now left.
        * subst. right. exists nm. now left.
        * now left.
        * right. exists nm'. now right.
  Qed.

  Lemma image_loop_In count number (images : list (str * list A)) : forall index last x k,
    In (x, k) (fst (image_loop digits count number index images last)) ->
    exists j name data, nth_error images j = Some (name, data) /\ x = $"page_" ++ digits number ++ $"_" ++ name /\
      k = AtNumber (- ((index + Z.of_nat j + 1) * count + number)).
  Proof.
    induction images as [|[name data] images IH]; intros index last x k H; cbn [image_loop] in H; [destruct H|].
    destruct (image_loop digits count number (index + 1) images _) as [l last'] eqn:E. cbn [fst] in H. destruct H as [[= <- <-]|H].
    - exists 0%nat, name, data. split; [reflexivity|]. split; [reflexivity|]. do 2 f_equal. lia.
    - destruct (IH (index + 1) (Some (- ((index + 1) * count + number))) x k) as (j & nm & dt & H1 & H2 & H3); [now rewrite E|].
      exists (S j), nm, dt. split; [assumption|]. split; [assumption|]. rewrite H3. do 2 f_equal. lia.
  Qed.

  Definition in_page (p : @page A) (count number : Z) (x : str) (k : found) : Prop :=
    (exists r, In (x, r) (pg_annots p) /\ k = AtRef r) \/
    (exists j name data, nth_error (pg_images p) j = Some (name, data) /\ x = $"page_" ++ digits number ++ $"_" ++ name /\
       k = AtNumber (- ((Z.of_nat j + 1) * count + number))) \/
    (pg_text p <> [] /\ x = $"page_" ++ digits number ++ $".txt" /\ k = AtNumber (- number)).

  Lemma page_loop_In count (pages : list (@page A)) : forall number last x k,
    In (x, k) (fst (page_loop digits count number pages last)) ->
    exists n p, nth_error pages n = Some p /\ in_page p count (number + Z.of_nat n) x k.
  Proof.
    induction pages as [|p pages IH]; intros number last x k H; cbn [page_loop] in H; [destruct H|].
    destruct (image_loop digits count number 0 (pg_images p) last) as [images last1] eqn:E1.
    destruct (page_loop digits count (number + 1) pages last1) as [rest last2] eqn:E2. cbn [fst] in H.
    rewrite !in_app_iff in H. destruct H as [H|[H|[H|H]]].
    - exists 0%nat, p. split; [reflexivity|]. left. apply in_map_iff in H as ([nm r] & [= <- <-] & H). exists r. auto.
    - exists 0%nat, p. split; [reflexivity|]. right. left. replace (number + Z.of_nat 0) with number by lia.
      destruct (image_loop_In count number (pg_images p) 0 last x k) as (j & nm & dt & H1 & H2 & H3); [now rewrite E1|].
      exists j, nm, dt. repeat split; try assumption; rewrite H3; do 2 f_equal; lia.
    - exists 0%nat, p. split; [reflexivity|]. right. right. replace (number + Z.of_nat 0) with number by lia.
      destruct (pg_text p); [destruct H|]. destruct H as [[= <- <-]|[]]. repeat split. discriminate.
    - destruct (IH (number + 1) last1 x k) as (n & q & H1 & H2); [now rewrite E2|]. exists (S n), q. split; [assumption|].
      replace (number + Z.of_nat (S n)) with (number + 1 + Z.of_nat n) by lia. assumption.
  Qed.

  Lemma image_loop_last count number (images : list (str * list A)) : 0 < count -> 0 <= number -> forall index last o, 0 <= index ->
    (forall p, last = Some p -> p < 0) -> snd (image_loop digits count number index images last) = Some o -> o < 0.
  Proof.
    intros Hc Hn. induction images as [|[name data] images IH]; intros index last o Hi Hl H; cbn [image_loop] in H; [now apply Hl|].
    destruct (image_loop digits count number (index + 1) images _) as [l last'] eqn:E. cbn [snd] in H.
    eapply (IH (index + 1)); [lia| |rewrite E; exact H]. intros p [= <-]. nia.
  Qed.

  Lemma page_loop_last count (pages : list (@page A)) : 0 < count -> forall number last o, 0 <= number -> (forall p, last = Some p -> p < 0) ->
    snd (page_loop digits count number pages last) = Some o -> o < 0.
  Proof.
    intros Hc. induction pages as [|p pages IH]; intros number last o Hn Hl H; cbn [page_loop] in H; [now apply Hl|].
    destruct (image_loop digits count number 0 (pg_images p) last) as [images last1] eqn:E1.
    destruct (page_loop digits count (number + 1) pages last1) as [rest last2] eqn:E2. cbn [snd] in H.
    eapply (IH (number + 1) last1); [lia| |rewrite E2; exact H].
    intros q ->. eapply (image_loop_last count number (pg_images p) Hc Hn 0 last); [lia|assumption|now rewrite E1].
  Qed.

  Lemma page_loop_refs count (pages : list (@page A)) : forall number last name r p, In p pages -> In (name, r) (pg_annots p) ->
    In (name, AtRef r) (fst (page_loop digits count number pages last)).
  Proof.
    induction pages as [|q pages IH]; intros number last name r p Hp Ha; [destruct Hp|]. cbn [page_loop].
    destruct (image_loop digits count number 0 (pg_images q) last) as [images last1].
    destruct (page_loop digits count (number + 1) pages last1) as [rest last2] eqn:E2. cbn [fst]. rewrite !in_app_iff.
    destruct Hp as [->|Hp].
    - left. apply in_map_iff. now exists (name, r).
    - right. right. right. specialize (IH (number + 1) last1 name r p Hp Ha). now rewrite E2 in IH.
  Qed.

  Lemma pref_eqb_spec (a b : pref) : reflect (a = b) ((fst a =? fst b) && (snd a =? snd b)).
  Proof.
    destruct a as [a1 a2], b as [b1 b2]. cbn [fst snd]. destruct (Z.eqb_spec a1 b1) as [->|N]; cbn [andb].
    - destruct (Z.eqb_spec a2 b2) as [->|N]; constructor; congruence.
    - constructor; congruence.
  Qed.

  Lemma xref_In d r o : xref_of d r = Some o -> In (r, o) (d_xref d).
  Proof. apply dget_Some_In. apply pref_eqb_spec. Qed.

  Lemma dict_of_NoDup_get {V} (l : list (Z * V)) k v : NoDup (map fst l) -> In (k, v) l -> dget Z.eqb (dict_of Z.eqb l) k = Some v.
  Proof.
    intros H Hi. unfold dict_of. rewrite dget_dupdate; [|apply Z.eqb_spec|exact H].
    rewrite (NoDup_dget Z.eqb Z.eqb_spec l k v H Hi). reflexivity.
  Qed.

  Lemma object_at_ref d r o : xref_proper d -> xref_of d r = Some o -> object_at d o = Some r.
  Proof.
    intros (H1 & H2 & _) X. apply xref_In in X. unfold object_at. apply dict_of_NoDup_get.
    - rewrite map_map. cbn [fst]. exact H2.
    - apply in_map_iff. now exists (r, o).
  Qed.

  Lemma open_image d n p j name data : nth_error (d_pages d) n = Some p -> nth_error (pg_images p) j = Some (name, data) ->
    open_with_offset d (- ((Z.of_nat j + 1) * len (d_pages d) + Z.of_nat n)) = Ok (Some data).
  Proof.
    intros Hn Hj. assert (Hlt : Z.of_nat n < len (d_pages d)) by (unfold len; assert (n < length (d_pages d))%nat by (apply nth_error_Some; congruence); lia).
    unfold open_with_offset. set (c := len (d_pages d)) in *. assert (E : (- ((Z.of_nat j + 1) * c + Z.of_nat n) <=? 0) = true) by (apply Z.leb_le; nia).
    rewrite E. rewrite Z.opp_involutive.
    assert (M : ((Z.of_nat j + 1) * c + Z.of_nat n) mod c = Z.of_nat n).
    { rewrite Z.add_comm, Z.mod_add by lia. apply Z.mod_small. lia. }
    assert (D : ((Z.of_nat j + 1) * c + Z.of_nat n) / c = Z.of_nat j + 1).
    { rewrite Z.add_comm, Z.div_add by lia. rewrite Z.div_small by lia. lia. }
    rewrite M, D, Nat2Z.id, Hn. assert (E0 : (Z.of_nat j + 1 =? 0) = false) by (apply Z.eqb_neq; lia). rewrite E0.
    replace (Z.of_nat j + 1 - 1) with (Z.of_nat j) by lia. rewrite Nat2Z.id, Hj. reflexivity.
  Qed.

  Lemma open_text d n p : nth_error (d_pages d) n = Some p -> open_with_offset d (- Z.of_nat n) = Ok (Some (pg_text p)).
  Proof.
    intros Hn. assert (Hlt : Z.of_nat n < len (d_pages d)) by (unfold len; assert (n < length (d_pages d))%nat by (apply nth_error_Some; congruence); lia).
    unfold open_with_offset. assert (E : (- Z.of_nat n <=? 0) = true) by (apply Z.leb_le; lia). rewrite E, Z.opp_involutive.
    rewrite Z.mod_small, Z.div_small, Nat2Z.id, Hn by lia. reflexivity.
  Qed.
End Pdf.
