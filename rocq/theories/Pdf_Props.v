(** C87: the files in a PDF document. *)
From Coq Require Import Ascii String.
From Verif Require Import PyBase PyDict PyStr Pdf_Model Pdf_Spec Pdf_Proofs.
Local Open Scope Z_scope.

Definition ex_digits (n : Z) : str := [ascii_of_nat (48 + Z.to_nat n)].

(** A document with two attachments (one also attached to a page) and a page with an image and text. *)
Definition ex_doc : @document nat :=
  mkDoc [($"a.txt", (0, 5))] [mkPage [($"b.txt", (0, 6)); ($"a again", (0, 5))] [($"Im1.png", [1; 2]%nat)] [7; 8]%nat]
        [((0, 4), 15); ((0, 5), 40); ((0, 6), 90)] (fun r => if snd r =? 5 then Some [3]%nat else if snd r =? 6 then Some [4; 4]%nat else None).

Example ex_doc_proper : xref_proper ex_doc.
Proof.
  split; [|split].
  - cbn. repeat constructor; cbn; intuition congruence.
  - cbn. repeat constructor; cbn; intuition congruence.
  - intros name r o _ H. cbn in H. repeat destruct H as [[= <- <-]|H]; try lia.
Qed.

(** Everything shown reads as what it is shown as: an attached stream, an image or the text of a page. *)
Theorem C87_shown_reads :
  forall (A : Type) (digits : Z -> str) (d : @document A) files name k,
    xref_proper d -> gather digits d = Ok files -> In (name, k) files ->
    (exists r, attached d name r /\ open_with_offset d k = Ok (d_stream d r)) \/
    (exists n i data p img, nth_error (d_pages d) n = Some p /\ nth_error (pg_images p) i = Some (img, data) /\
       name = $"page_" ++ digits (Z.of_nat n) ++ $"_" ++ img /\ open_with_offset d k = Ok (Some data)) \/
    (exists n data, text_of d n data /\ data <> [] /\ name = $"page_" ++ digits (Z.of_nat n) ++ $".txt" /\
       open_with_offset d k = Ok (Some data)).
Proof.
  intros A digits d files name k Hx Hg Hi. unfold gather in Hg.
  destruct (page_loop digits (len (d_pages d)) 0 (d_pages d) None) as [objects offset] eqn:E.
  assert (P : forall x f, In (x, f) objects -> exists n p, nth_error (d_pages d) n = Some p /\ in_page digits p (len (d_pages d)) (Z.of_nat n) x f).
  { intros x f H. destruct (page_loop_In digits (len (d_pages d)) (d_pages d) 0 None x f) as (n & p & H1 & H2); [now rewrite E|].
    exists n, p. split; assumption. }
  assert (R : forall r, attached d name r -> xref_of d r = Some k -> exists r, attached d name r /\ open_with_offset d k = Ok (d_stream d r)).
  { intros r Ha X. exists r. split; [assumption|]. unfold open_with_offset.
    pose proof (proj2 (proj2 Hx) name r k Ha (xref_In d r k X)) as Hp. assert (E0 : (k <=? 0) = false) by (apply Z.leb_gt; assumption).
    rewrite E0, (object_at_ref d r k Hx X). reflexivity. }
  destruct (emit_sound d _ _ _ _ name k Hg Hi) as [H|(r & H & X)]; apply in_app_iff in H as [H|H].
  - apply in_map_iff in H as (a & [=] & _).
  - destruct (P _ _ H) as (n & p & Hn & [(r & _ & [=])|[(j & img & data & Hj & -> & [= ->])|(Ht & -> & [= ->])]]).
    + right. left. exists n, j, data, p, img. repeat split; try assumption. eapply open_image; eassumption.
    + right. right. exists n, (pg_text p). repeat split; try assumption; [now exists p|]. now apply open_text.
  - left. apply in_map_iff in H as ([nm r'] & [= <- <-] & H). apply (R r'); [left; assumption|assumption].
  - left. destruct (P _ _ H) as (n & p & Hn & [(r' & Ha & [= <-])|[(j & img & data & _ & _ & [=])|(_ & _ & [=])]]).
    apply (R r); [|assumption]. right. exists p. split; [eapply nth_error_In; eassumption|assumption].
Qed.
Print Assumptions C87_shown_reads.

Example C87_shown_reads_ex :
  gather ex_digits ex_doc = Ok [($"a.txt", 40); ($"b.txt", 90)] /\ pdf_open ex_doc 90 = Ok [4; 4]%nat.
Proof. split; reflexivity. Qed.

(** Every attached stream is shown, under the name of one of its attachments. *)
Theorem C87_attachments :
  forall (A : Type) (digits : Z -> str) (d : @document A) files name r k,
    xref_proper d -> gather digits d = Ok files -> attached d name r -> In (r, k) (d_xref d) ->
    exists name', In (name', k) files.
Proof.
  intros A digits d files name r k Hx Hg Ha Hk. unfold gather in Hg.
  destruct (page_loop digits (len (d_pages d)) 0 (d_pages d) None) as [objects offset] eqn:E.
  assert (X : xref_of d r = Some k) by (apply NoDup_dget; [apply pref_eqb_spec|apply Hx|assumption]).
  assert (Hi : In (name, AtRef r) (map (fun a => (fst a, AtRef (snd a))) (d_embedded d) ++ objects)).
  { apply in_app_iff. destruct Ha as [Ha|(p & Hp & Ha)]; [left; apply in_map_iff; now exists (name, r)|right].
    pose proof (page_loop_refs digits (len (d_pages d)) (d_pages d) 0 None name r p Hp Ha) as H. now rewrite E in H. }
  pose proof (proj2 (proj2 Hx) name r k Ha Hk) as Hpos.
  destruct (emit_complete d _ offset [] files name r k Hg Hi X) as [[]|H]; [|assumption].
  intros o -> ->. exfalso. destruct (d_pages d) as [|p0 ps] eqn:Ep.
  - cbn in E. injection E as _ E. discriminate.
  - assert (k < 0); [|lia]. eapply (page_loop_last digits (len (p0 :: ps)) (p0 :: ps)); [unfold len; cbn [length]; lia|apply Z.le_refl| |rewrite E; reflexivity].
    intros q [=].
Qed.
Print Assumptions C87_attachments.

(** Images and page texts are hardly ever shown: only the very first object found can be one, and only without embedded files. *)
Theorem C87_images_only_first_partial :
  forall (A : Type) (digits : Z -> str) (d : @document A) files name k,
    xref_proper d -> gather digits d = Ok files -> In (name, k) files -> k <= 0 ->
    d_embedded d = [] /\ exists rest, files = (name, k) :: rest /\ Forall (fun f => 0 < snd f) rest.
Proof.
  intros A digits d files name k Hx Hg Hi Hk. unfold gather in Hg.
  destruct (page_loop digits (len (d_pages d)) 0 (d_pages d) None) as [objects offset] eqn:E.
  assert (P : forall nm r o, In (nm, AtRef r) (map (fun a => (fst a, AtRef (snd a))) (d_embedded d) ++ objects) -> xref_of d r = Some o -> 0 < o).
  { intros nm r o H X. apply (proj2 (proj2 Hx) nm r o); [|now apply xref_In]. apply in_app_iff in H as [H|H].
    - left. apply in_map_iff in H as ([nm' r'] & [= <- <-] & H). assumption.
    - right. destruct (page_loop_In digits (len (d_pages d)) (d_pages d) 0 None nm (AtRef r)) as (n & p & Hn & [(r' & Ha & [= <-])|[(j & img & data & _ & _ & [=])|(_ & _ & [=])]]);
        [now rewrite E|]. exists p. split; [eapply nth_error_In; eassumption|assumption]. }
  set (all := map (fun a => (fst a, AtRef (snd a))) (d_embedded d) ++ objects) in *.
  destruct all as [|[nm f] rest] eqn:Eall; cbn [emit_loop] in Hg; [injection Hg as <-; destruct Hi|].
  assert (Tail : forall o os l, In o os -> emit_loop d rest (Some o) os = Ok l -> Forall (fun g => 0 < snd g) l).
  { intros o os l Ho El. apply Forall_forall. intros [n0 k0] H0. destruct (emit_no_numbers d rest o os l n0 k0 Ho El H0) as (r & Hr & X).
    cbn [snd]. eapply (P n0 r); [now right|assumption]. }
  destruct f as [n|r].
  - destruct offset as [o|]; [|discriminate]. cbn [existsb] in Hg. destruct (emit_loop d rest (Some o) [o]) as [l|e] eqn:El; [|discriminate].
    injection Hg as <-. specialize (Tail o [o] l (or_introl eq_refl) El).
    assert (Hf : (nm, n) = (name, k)).
    { destruct Hi as [Hi|Hi]; [assumption|]. rewrite Forall_forall in Tail. specialize (Tail _ Hi). cbn [snd] in Tail. lia. }
    injection Hf as -> ->. split; [|now exists l]. destruct (d_embedded d) as [|e es]; [reflexivity|]. subst all. discriminate.
  - exfalso. destruct (xref_of d r) as [o|] eqn:X; [|discriminate]. cbn [existsb] in Hg.
    destruct (emit_loop d rest (Some o) [o]) as [l|e] eqn:El; [|discriminate]. injection Hg as <-.
    specialize (Tail o [o] l (or_introl eq_refl) El). destruct Hi as [[= -> ->]|Hi].
    + specialize (P name r k (or_introl eq_refl) X). lia.
    + rewrite Forall_forall in Tail. specialize (Tail _ Hi). cbn [snd] in Tail. lia.
Qed.
Print Assumptions C87_images_only_first_partial.

Example C87_images_ex :
  gather ex_digits (mkDoc [] [mkPage [] [($"Im1.png", [1%nat])] [7%nat]; mkPage [] [($"Im1.png", [2%nat])] []] [] (fun _ => None))
  = Ok [($"page_0_Im1.png", -2)].
Proof. reflexivity. Qed.

(** So not all images and texts are shown. *)
Theorem C87_images_refuted :
  ~ (forall (A : Type) (digits : Z -> str) (d : @document A) files n i data,
       xref_proper d -> gather digits d = Ok files -> image_of d n i data -> data <> [] ->
       exists name k, In (name, k) files /\ open_with_offset d k = Ok (Some data)).
Proof.
  intros H.
  destruct (H nat ex_digits (mkDoc [] [mkPage [] [($"Im1.png", [1%nat])] [7%nat]; mkPage [] [($"Im1.png", [2%nat])] []] [] (fun _ => None))
              [($"page_0_Im1.png", -2)] 1%nat 0%nat [2%nat]) as (name & k & Hi & Ho).
  - split; [constructor|]. split; [constructor|]. intros ? ? ? _ [].
  - reflexivity.
  - eexists _, _. split; reflexivity.
  - discriminate.
  - destruct Hi as [[= <- <-]|[]]. discriminate Ho.
Qed.
Print Assumptions C87_images_refuted.

(** A document with text but without images and attachments cannot be mounted at all. *)
Theorem C87_text_only_refuted :
  ~ (forall (A : Type) (digits : Z -> str) (d : @document A), xref_proper d -> exists files, gather digits d = Ok files).
Proof.
  intros H. destruct (H nat ex_digits (mkDoc [] [mkPage [] [] [1%nat]] [] (fun _ => None))) as [files E].
  - split; [constructor|]. split; [constructor|]. intros ? ? ? _ [].
  - discriminate E.
Qed.
Print Assumptions C87_text_only_refuted.

(** Files shown can be opened, unless they are empty. *)
Theorem C87_open_partial :
  forall (A : Type) (d : @document A) k data, open_with_offset d k = Ok (Some data) -> data <> [] -> pdf_open d k = Ok data.
Proof. intros A d k data E H. unfold pdf_open. rewrite E. destruct data; [congruence|reflexivity]. Qed.
Print Assumptions C87_open_partial.

Theorem C87_open_refuted :
  ~ (forall (A : Type) (digits : Z -> str) (d : @document A) files name k data,
       xref_proper d -> gather digits d = Ok files -> In (name, k) files -> open_with_offset d k = Ok (Some data) -> pdf_open d k = Ok data).
Proof.
  intros H. specialize (H nat ex_digits (mkDoc [($"empty", (0, 5))] [] [((0, 5), 40)] (fun _ => Some [])) [($"empty", 40)] $"empty" 40 []).
  discriminate H.
  - split; [repeat constructor; cbn; intuition congruence|]. split; [repeat constructor; cbn; intuition congruence|].
    intros ? r o _ Hi. destruct Hi as [[= <- <-]|[]]. lia.
  - reflexivity.
  - now left.
  - reflexivity.
Qed.
Print Assumptions C87_open_refuted.
