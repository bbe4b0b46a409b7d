(** Proofs for C132. *)
From Coq Require Import Ascii String.
From Verif Require Import PyBase PyStr PyDict Html_Model Html_Spec Html_Proofs Html_Props HtmlCss_Model HtmlCss_Props HtmlDoc_Model HtmlDoc_Spec.
Local Open Scope Z_scope.

(** ** Where candidates come from *)
Inductive origin :=
| OTag (before name : list Z) (attrs : list attribute) (tail n u after : list Z)
| OText (before data : list Z) (u : option (list Z)) (b e : Z) (after : list Z).

Fixpoint origins (before : list Z) (ps : list piece) : list origin :=
  match ps with
  | [] => []
  | p :: r =>
      match p with
      | Tag name attrs tail _ => map (fun '(n, u) => OTag before name attrs tail n u (text_of r)) (tag_candidates (map reported attrs))
      | Text s => map (fun '(u, b, e) => OText before s u b e (text_of r)) (handle_data s)
      | _ => []
      end ++ origins (before ++ written p) r
  end.

Definition comes (o : origin) (c : candidate) : Prop :=
  match o with
  | OTag before name attrs tail n u after =>
      k_url c = Some u /\ k_attribute c = n /\ k_start c = position before 1 0 /\
      (k_next c = None \/ exists m1 m2, after = m1 ++ m2 /\ k_next c = Some (position (before ++ write_tag name attrs tail ++ m1) 1 0))
  | OText before data u b e after =>
      let at_ := position before 1 0 in c = mkCandidate u [] (fst at_, snd at_ + b) (Some (fst at_, snd at_ + e))
  end.
Definition past (now rest : list Z) (o : origin) : Prop :=
  match o with
  | OTag before name attrs tail _ _ after => exists m, now = before ++ write_tag name attrs tail ++ m /\ after = m ++ rest
  | OText _ _ _ _ _ _ => True
  end.

Lemma Forall2_weaken {X Y} (P Q : X -> Y -> Prop) l m : (forall x y, P x y -> Q x y) -> Forall2 P l m -> Forall2 Q l m.
Proof. intros H. induction 1; constructor; auto. Qed.
Lemma same_place_spec a b : same_place a b = true -> a = b.
Proof. destruct a as [a1 a2], b as [b1 b2]. unfold same_place. cbn [fst snd]. rewrite andb_true_iff, !Z.eqb_eq. now intros [-> ->]. Qed.
Lemma same_place_refl a : same_place a a = true.
Proof. unfold same_place. now rewrite !Z.eqb_refl. Qed.

Lemma update_inv now rest os files : Forall2 (fun o c => comes o c /\ past now rest o) os files ->
  Forall2 (fun o c => comes o c /\ past now rest o) os (update_end files (position now 1 0)).
Proof.
  intros F. destruct files as [|c0 files0] using rev_ind; [exact F|clear IHfiles0]. unfold update_end. rewrite rev_app_distr. cbn [rev app].
  destruct (k_next c0) eqn:Nx; [exact F|]. destruct (same_place _ _); [exact F|]. rewrite rev_involutive.
  apply Forall2_app_inv_r in F as (o1 & o2 & F1 & F2 & ->). inversion F2 as [|o ? ? ? [Co Pa] F3]; subst. inversion F3; subst.
  apply Forall2_app; [exact F1|]. constructor; [|constructor]. split; [|exact Pa].
  destruct o as [before name attrs tail n u after|before data u b e after]; cbn [comes past] in *.
  - destruct Co as (C1 & C2 & C3 & _). destruct Pa as (m & -> & ->). cbn [k_url k_attribute k_start k_next]. repeat split; auto. right. exists m, rest. auto.
  - subst c0. discriminate.
Qed.
Lemma update_new (files : list candidate) at_ news : news <> [] -> Forall (fun c => k_start c = at_) news -> update_end (files ++ news) at_ = files ++ news.
Proof.
  intros N F. destruct news as [|c news] using rev_ind; [congruence|clear IHnews]. apply Forall_app in F as [_ F]. inversion F as [|? ? E _]; subst.
  unfold update_end. rewrite app_assoc, rev_app_distr. cbn [rev app]. destruct (k_next c); [reflexivity|]. now rewrite same_place_refl.
Qed.
Lemma past_on now rest w o : past now (w ++ rest) o -> past (now ++ w) rest o.
Proof.
  destruct o as [before name attrs tail n u after|]; [|trivial]. intros (m & -> & ->). exists (m ++ w). rewrite <- !app_assoc. auto.
Qed.

Lemma calls_origins ps : forall now os files, Forall2 (fun o c => comes o c /\ past now (text_of ps) o) os files ->
  Forall2 comes (os ++ origins now ps) (fold_left handle (calls now ps) files).
Proof.
  induction ps as [|p ps IH]; intros now os files F.
  - cbn. rewrite app_nil_r. eapply Forall2_weaken; [|exact F]. intros o c [H _]; exact H.
  - cbn [calls origins]. rewrite fold_left_app, app_assoc. apply IH. change (text_of (p :: ps)) with (written p ++ text_of ps) in F.
    pose proof (update_inv _ _ _ _ F) as U.
    assert (forall os files, Forall2 (fun o c => comes o c /\ past now (written p ++ text_of ps) o) os files ->
              Forall2 (fun o c => comes o c /\ past (now ++ written p) (text_of ps) o) os files) as On.
    { intros os' files' F'. eapply Forall2_weaken; [|exact F']. intros o c [H1 H2]. split; [exact H1|now apply past_on]. }
    destruct p as [name attrs tail closed|s|s|s]; cbn [written fold_left handle] in *.
    + set (news := map (fun '(n, u) => mkCandidate (Some u) n (position now 1 0) None) (tag_candidates (map reported attrs))).
      assert (Forall2 (fun o c => comes o c /\ past (now ++ write_tag name attrs tail) (text_of ps) o)
                (map (fun '(n, u) => OTag now name attrs tail n u (text_of ps)) (tag_candidates (map reported attrs))) news) as Fn.
      { unfold news. induction (tag_candidates (map reported attrs)) as [|[n u] l IHl]; cbn [map]; constructor; [|exact IHl].
        cbn [comes past k_url k_attribute k_start k_next]. split; [repeat split; auto|]. exists []. rewrite !app_nil_r. auto. }
      assert (G : update_end (update_end files (position now 1 0) ++ news) (position now 1 0) = update_end files (position now 1 0) ++ news \/ news = []).
      { destruct news eqn:E; [now right|]. left. rewrite <- E. apply update_new; [rewrite E; discriminate|]. unfold news. apply Forall_map. apply Forall_forall. now intros [n u] _. }
      destruct closed; cbn [fold_left handle].
      * destruct G as [G|G]; [fold news; rewrite G; apply Forall2_app; [now apply On|exact Fn]|].
        fold news. rewrite G in *. inversion Fn as [E|]. rewrite !app_nil_r. apply On. now apply update_inv.
      * fold news. apply Forall2_app; [now apply On|exact Fn].
    + apply Forall2_app; [now apply On|]. induction (handle_data s) as [|[[u b] e] l IHl]; cbn [map]; constructor; [|exact IHl]. split; reflexivity.
    + rewrite app_nil_r. now apply On.
    + rewrite app_nil_r. now apply On.
Qed.

(** ** Loops, sorting and the dictionary *)
Lemma each_ok {X Y} (f : X -> res Y) (R : X -> Y -> Prop) l : (forall x, In x l -> exists y, f x = Ok y /\ R x y) -> exists ys, each f l = Ok ys /\ Forall2 R l ys.
Proof.
  induction l as [|x l IH]; intros H; cbn [each]; [exists []; split; [reflexivity|constructor]|].
  destruct (H x (or_introl eq_refl)) as (y & E & Rxy). destruct IH as (ys & Es & F); [intros z I; apply H; now right|]. rewrite E. cbn [bind]. rewrite Es. cbn [bind].
  exists (y :: ys). split; [reflexivity|now constructor].
Qed.
Lemma put_in x y l : In y (put x l) <-> y = x \/ In y l.
Proof. induction l as [|z l IH]; cbn [put]; [cbn; intuition|]. destruct (x <=? z); cbn [In]; [intuition|]. rewrite IH. tauto. Qed.
Lemma sorted_in y l : In y (sorted l) <-> In y l.
Proof. induction l as [|x l IH]; cbn [sorted fold_right]; [tauto|]. rewrite put_in. fold (sorted l). rewrite IH. cbn [In]. intuition. Qed.
Inductive ascending : list Z -> Prop :=
| asc_nil : ascending []
| asc_cons x l : (forall y, In y l -> x <= y) -> ascending l -> ascending (x :: l).
Lemma put_asc x l : ascending l -> ascending (put x l).
Proof.
  induction l as [|z l IH]; intros A; cbn [put]; [constructor; [intros y []|constructor]|]. inversion A as [|? ? L A']; subst. destruct (x <=? z) eqn:E.
  - constructor; [|exact A]. intros y [<-|I]; [lia|]. specialize (L y I). lia.
  - constructor; [|now apply IH]. intros y I. apply put_in in I as [-> |I]; [lia|now apply L].
Qed.
Lemma sorted_asc l : ascending (sorted l).
Proof. induction l as [|x l IH]; [constructor|now apply put_asc]. Qed.
Lemma asc_nth l : ascending l -> forall i j, (i <= j)%nat -> (j < List.length l)%nat -> nth i l 0 <= nth j l 0.
Proof.
  induction 1 as [|x l L A IH]; intros i j Hi Hj; [cbn in Hj; lia|]. destruct j as [|j].
  - assert (i = 0)%nat as -> by lia. lia.
  - cbn [List.length] in Hj. destruct i as [|i]; cbn [nth]; [apply L, nth_In; lia|apply IH; lia].
Qed.
Lemma dict_in (l : list (Z * Z)) o : In o (map fst l) -> exists b, dget Z.eqb (dict_of Z.eqb l) o = Some b /\ In (o, b) l.
Proof.
  induction l as [|[k v] l IH] using rev_ind; [intros []|]. intros I. rewrite (dget_dict_of_snoc Z.eqb Z.eqb_spec). destruct (Z.eqb_spec o k) as [-> |N].
  - exists v. split; [reflexivity|]. apply in_or_app. right. now left.
  - rewrite map_app in I. apply in_app_or in I as [I|I]; [|cbn in I; destruct I as [I|[]]; congruence]. destruct (IH I) as (b & E & J). exists b. split; [exact E|]. apply in_or_app. now left.
Qed.
Lemma sum_chunks chunks : forall n, fold_left (fun n (c : list Z) => n + len c) chunks n = n + len (concat chunks).
Proof. induction chunks as [|c r IH]; intros n; cbn [fold_left concat]; [change (len []) with 0; lia|]. rewrite IH, len_app. lia. Qed.

(** ** Positions *)
Section Document.
  Variable d : document.
  Variable chunks : list text.
  Hypothesis Hc : concat chunks = characters d.
  Notation offsets := (0 :: line_offsets chunks 0).

  Lemma at_offset s t : characters d = s ++ t -> forall k, to_char_offset offsets (fst (position s 1 0)) (snd (position s 1 0) + k) = Ok (len s + k).
  Proof.
    intros E k. pose proof (C110_offset chunks s t) as K. rewrite Hc in K. specialize (K E). destruct (position s 1 0) as [line column]. cbn [fst snd].
    unfold to_char_offset in *. destruct (nth_error _ _); [|discriminate]. injection K as K. f_equal. unfold len. lia.
  Qed.
  Lemma at_offset0 s t : characters d = s ++ t -> to_char_offset offsets (fst (position s 1 0)) (snd (position s 1 0)) = Ok (len s).
  Proof. intros E. rewrite <- (Z.add_0_r (snd _)), (at_offset s t E), Z.add_0_r. reflexivity. Qed.

  Definition placed (c : candidate) (s e : Z) : Prop :=
    to_char_offset offsets (fst (k_start c)) (snd (k_start c)) = Ok s /\
    match k_next c with Some n => to_char_offset offsets (fst n) (snd n) = Ok e | None => e = len d end /\
    0 <= s <= len d /\ 0 <= e <= len d.

  Lemma gather_ok cs (P : candidate -> Z -> Z -> Prop) :
    (forall c, In c (fold_left handle cs []) -> exists s e b e', placed c s e /\ embedded_span d (k_attribute c) (width (ztake s d)) (width (ztake e d)) = Ok (Some (b, e')) /\ P c b e') ->
    exists files, gather chunks d cs = Ok files /\ Forall2 (fun c f => fst (fst f) = k_url c /\ P c (snd (fst f)) (snd f)) (fold_left handle cs []) files.
  Proof.
    intros H. unfold gather. set (files := fold_left handle cs []) in *. rewrite sum_chunks, Hc, characters_len, Z.add_0_l.
    set (place := fun c : candidate => _).
    assert (Pl : forall c s e, placed c s e -> place c = Ok (s, e)).
    { intros c s e (A & B & _). unfold place. rewrite A. cbn [bind]. destruct (k_next c); [rewrite B; reflexivity|now rewrite B]. }
    destruct (each_ok place (fun c p => placed c (fst p) (snd p)) files) as (places & Ep & Fp).
    { intros c I. destruct (H c I) as (s & e & b & e' & Pc & _). exists (s, e). split; [now apply Pl|exact Pc]. }
    rewrite Ep. cbn [bind]. set (os := flat_map (fun '(s, e) => [s; e]) places).
    assert (B : forall o, In o os -> 0 <= o <= len d).
    { intros o I. apply in_flat_map in I as ([s e] & I & J). apply in_split in I as (l1 & l2 & El). rewrite El in Fp.
      apply Forall2_app_inv_r in Fp as (c1 & c2 & _ & F2 & _). inversion F2 as [|c ? ? ? (_ & _ & Bs & Be) _]; subst. cbn [fst snd] in *. destruct J as [<-|[<-|[]]]; assumption. }
    destruct (convert_ok (sorted os) [] d) as (l & El & M & K).
    { apply asc_nth, sorted_asc. }
    { intros o I. exact (B o (proj1 (sorted_in o os) I)). }
    change (convert_offsets d 0 0 (sorted os) = Ok l) in El. rewrite El. cbn [bind]. cbn [app] in K.
    assert (D : forall o, In o os -> dget Z.eqb (dict_of Z.eqb l) o = Some (width (ztake o d))).
    { intros o I. destruct (dict_in l o) as (b & E & J); [rewrite M; exact (proj2 (sorted_in o os) I)|]. rewrite E, (K o b J). reflexivity. }
    set (file := fun c : candidate => _).
    destruct (each_ok file (fun c r => exists b e', r = [(k_url c, b, e')] /\ P c b e') files) as (ls & Es & Fs).
    { intros c I. destruct (H c I) as (s & e & b & e' & Pc & Sp & Pb). unfold file. pose proof (Pl c s e Pc) as Q. unfold place in Q. rewrite Q. cbn [bind].
      assert (In (s, e) places) as Ip.
      { clear - Fp I Pl Pc Ep. revert places Ep Fp. induction files as [|c0 files IHf]; intros places Ep Fp; [destruct I|]. cbn [each] in Ep. destruct I as [-> |I].
        - rewrite (Pl c s e Pc) in Ep. cbn [bind] in Ep. destruct (each place files); cbn [bind] in Ep; [|discriminate]. injection Ep as <-. now left.
        - destruct (place c0); cbn [bind] in Ep; [|discriminate]. destruct (each place files) as [ys|] eqn:E; cbn [bind] in Ep; [|discriminate]. injection Ep as <-. right.
          inversion Fp as [|? ? ? ? _ F']; subst. exact (IHf I ys eq_refl F'). }
      rewrite (D s), (D e) by (apply in_flat_map; exists (s, e); split; [exact Ip|cbn; auto]). rewrite Sp. cbn [bind]. eexists. split; [reflexivity|]. exists b, e'. auto. }
    rewrite Es. cbn [bind]. exists (concat ls). split; [reflexivity|]. clear - Fs. induction Fs as [|c r cs' ls (b & e' & -> & Pb) F IH]; [constructor|]. cbn [concat app]. constructor; [auto|exact IH].
  Qed.

  (** A document split as its text is split. *)
  Lemma split_doc s t : characters d = s ++ t -> exists x y, d = x ++ y /\ characters x = s /\ characters y = t /\ len x = len s.
  Proof.
    intros E. exists (ztake (len s) d), (zskip (len s) d). assert (d = ztake (len s) d ++ zskip (len s) d) as Ed by (unfold ztake, zskip; symmetry; apply firstn_skipn).
    assert (characters (ztake (len s) d) = s) as E1.
    { unfold characters, ztake. rewrite <- firstn_map. change (map fst d) with (characters d). rewrite E. apply ztake_app_len. }
    split; [exact Ed|]. split; [exact E1|]. split; [|rewrite <- characters_len, E1; reflexivity].
    rewrite Ed, characters_app, E1 in E. now apply app_inv_head in E.
  Qed.
End Document.
