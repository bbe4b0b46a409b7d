(** C108: the logical streams of an OGG file. *)
From Coq Require Import Ascii String.
From Verif Require Import PyBase PyStr PyDict Ogg_Model Ogg_Spec Ogg_Proofs.
Local Open Scope Z_scope.

(** Every file that is a valid sequence of pages, with less than a page header of other bytes at its end: there is one file for each
    stream, under a name of its own after the serial number and the kind of the stream, and it is made of the pages of that stream. *)
Theorem C108_demultiplexed (ps : list opage) (tail : list Z) : Forall proper ps -> valid ps -> (List.length tail < 27)%nat ->
  exists rows ids, listing (bytes_of ps ++ tail) = Ok rows /\ NoDup ids /\ (forall id, In id ids <-> exists p, In p ps /\ o_serial p = id) /\
    NoDup (map (fun row => fst (fst row)) rows) /\
    Forall2 (fun id '(nm, sz, content) => stream_name id (first_body (of_stream id ps)) nm /\
               content = bytes_of (of_stream id ps) /\ sz = Z.of_nat (List.length content)) ids rows.
Proof.
  intros F V T. assert (len tail < 27) as T' by (unfold len; lia). destruct (parse_pages ps tail F V T') as (ss & E & N & G).
  unfold listing. rewrite E. cbn [bind]. exists (map (fun '(id, s) => (name id s, size s, content (bytes_of ps ++ tail) s)) ss), (dkeys ss).
  assert (forall id s, In (id, s) ss -> expected ps id = Some s) as G'. { intros id s I. rewrite <- G. now apply NoDup_dget; [apply Z.eqb_spec| |]. }
  assert (forall id s, In (id, s) ss -> exists p l, of_stream id ps = p :: l /\ s = mkStream (fst (detect (o_body p))) (snd (detect (o_body p))) (-1) (spans 0 ps id) /\ 0 <= id < 2 ^ 32) as G2.
  { intros id s I. apply G' in I. unfold expected in I. destruct (of_stream id ps) as [|p l] eqn:Eo; [discriminate|]. injection I as <-. exists p, l. split; [reflexivity|split; [reflexivity|]].
    assert (In p (of_stream id ps)) as Ip by (rewrite Eo; now left). unfold of_stream in Ip. apply filter_In in Ip as [Ip Eq]. rewrite Forall_forall in F. apply F in Ip as (_ & _ & B & _). apply Z.eqb_eq in Eq. lia. }
  split; [reflexivity|]. split; [exact N|]. split; [|split].
  - intros id. rewrite <- (dget_In_keys _ Z.eqb_spec). split.
    + intros (s & Hs). rewrite G in Hs. unfold expected in Hs. destruct (of_stream id ps) as [|p l] eqn:Eo; [discriminate|]. exists p.
      assert (In p (of_stream id ps)) as Ip by (rewrite Eo; now left). unfold of_stream in Ip. apply filter_In in Ip as [Ip Eq]. apply Z.eqb_eq in Eq. auto.
    + intros (p & Ip & Es). rewrite G. unfold expected. destruct (of_stream id ps) as [|q l] eqn:Eo; [|eauto].
      assert (In p (of_stream id ps)) as Ip' by (apply filter_In; split; [exact Ip|now apply Z.eqb_eq]). rewrite Eo in Ip'. destruct Ip'.
  - rewrite map_map. clear E G G'. induction ss as [|[id s] ss IH]; [constructor|]. cbn [map dkeys fst] in *. inversion N as [|? ? N1 N2]; subst.
    constructor; [|apply IH; [exact N2|intros id' s' I; apply (G2 id' s'); now right]]. intros I. apply in_map_iff in I as ([id' s'] & En & I').
    destruct (G2 id s (or_introl eq_refl)) as (p & l & _ & -> & B). destruct (G2 id' s' (or_intror I')) as (p' & l' & _ & -> & B').
    apply N1. apply in_map_iff. exists (id', mkStream (fst (detect (o_body p'))) (snd (detect (o_body p'))) (-1) (spans 0 ps id')). split; [|exact I']. cbn [fst].
    eapply name_id; [exact B'|exact B| | |exact En]; cbn [s_media]; apply detect_media.
  - clear E G N G'. induction ss as [|[id s] ss IH]; [constructor|]. cbn [map dkeys fst]. constructor; [|apply IH; intros id' s' I; apply (G2 id' s'); now right].
    destruct (G2 id s (or_introl eq_refl)) as (p & l & Eo & -> & B). destruct (content_spans ps id [] tail F) as [C1 C2]. change (len []) with 0 in C1, C2. cbn [app] in C1, C2.
    split; [|split].
    + rewrite Eo. cbn [first_body]. exists (fst (detect (o_body p))), (hex8 id), (extension (mkStream (fst (detect (o_body p))) (snd (detect (o_body p))) (-1) [])).
      split; [reflexivity|]. split; [reflexivity|]. split; [now apply hex8_value|apply detect_kind].
    + exact C1.
    + transitivity (len (bytes_of (of_stream id ps))); [exact C2|]. unfold content, stencils. cbn [s_pages]. rewrite C1. reflexivity.
Qed.

(** A file that was taken out is a valid OGG file again: seen as an archive it holds one file, with the same content. *)
Theorem C108_again (ps : list opage) (id : Z) : Forall proper ps -> valid ps -> (exists p, In p ps /\ o_serial p = id) ->
  exists nm, listing (bytes_of (of_stream id ps)) = Ok [(nm, Z.of_nat (List.length (bytes_of (of_stream id ps))), bytes_of (of_stream id ps))].
Proof.
  intros F V (p0 & I0 & E0).
  assert (forall l, of_stream id (of_stream id l) = of_stream id l) as Idem.
  { intros l. unfold of_stream. induction l as [|x l IH]; cbn; [reflexivity|]. destruct (o_serial x =? id) eqn:Ex; [|exact IH]. cbn. rewrite Ex, IH. reflexivity. }
  assert (forall (f : opage -> bool) l a p b, filter f l = a ++ p :: b -> exists a' b', l = a' ++ p :: b' /\ a = filter f a' /\ f p = true) as Sp.
  { intros f. induction l as [|x l IH]; intros a p b; cbn [filter]; [destruct a; discriminate|]. destruct (f x) eqn:Ex.
    - destruct a as [|y a]; cbn [app].
      + intros [= -> E]. exists [], l. auto.
      + intros [= -> E]. destruct (IH _ _ _ E) as (a' & b' & -> & -> & H). exists (y :: a'), b'. cbn [filter]. rewrite Ex. auto.
    - intros E. destruct (IH _ _ _ E) as (a' & b' & -> & -> & H). exists (x :: a'), b'. cbn [filter]. rewrite Ex. auto. }
  destruct (C108_demultiplexed (of_stream id ps) []) as (rows & ids & E & N & Hi & _ & F2).
  - apply Forall_forall. intros p I. apply filter_In in I as [I _]. rewrite Forall_forall in F. auto.
  - intros a p b Eq. destruct (Sp _ _ _ _ _ Eq) as (a' & b' & E1 & -> & E3). apply Z.eqb_eq in E3. destruct (V a' p b' E1) as [V1 V2]. rewrite E3 in *.
    change (filter (fun p1 => o_serial p1 =? id) a') with (of_stream id a'). rewrite Idem. auto.
  - cbn. lia.
  - rewrite app_nil_r in E. rewrite E.
    assert (forall x, In x ids <-> x = id) as Hx.
    { intros x. rewrite Hi. split.
      - intros (p & I & <-). apply filter_In in I as [_ I]. now apply Z.eqb_eq.
      - intros ->. exists p0. split; [|exact E0]. apply filter_In. split; [exact I0|now apply Z.eqb_eq]. }
    destruct ids as [|i ids]; [exfalso; apply (proj2 (Hx id) eq_refl)|]. destruct ids as [|j ids].
    + inversion F2 as [|? row ? rest R Rest]; subst. inversion Rest; subst. destruct row as [[nm sz] c]. destruct R as (_ & -> & ->).
      rewrite (proj1 (Hx i) (or_introl eq_refl)) in *. rewrite Idem. eauto.
    + exfalso. inversion N as [|? ? N1 _]; subst. apply N1. left. rewrite (proj1 (Hx i) (or_introl eq_refl)), (proj1 (Hx j)); [reflexivity|right; now left].
Qed.

(** Whatever bytes the file consists of, if it is accepted: a byte of it is in at most one of the streams, and in each of them the bytes
    are in the order of the file. *)
Theorem C108_separate (file : list Z) (ss : streams) : Forall byte file -> parse file = Ok ss ->
  NoDup (map fst ss) /\
  (forall id1 s1 id2 s2 o1 n1 o2 n2, In (id1, s1) ss -> In (id2, s2) ss -> id1 <> id2 ->
     In (o1, n1) (stencils s1) -> In (o2, n2) (stencils s2) -> 0 <= o1 /\ (o1 + n1 <= o2 \/ o2 + n2 <= o1)) /\
  (forall id s a b c o1 n1 o2 n2, In (id, s) ss -> stencils s = a ++ (o1, n1) :: b ++ (o2, n2) :: c -> o1 + n1 <= o2).
Proof.
  intros Fb E. destruct (parse_inv2 _ _ Fb E) as (K1 & K2 & N). split; [exact N|].
  assert (forall id s, In (id, s) ss -> dget Z.eqb ss id = Some s) as G by (intros; now apply NoDup_dget; [apply Z.eqb_spec| |]).
  split.
  - intros id1 s1 id2 s2 o1 n1 o2 n2 I1 I2 Ne J1 J2. apply G in I1, I2. apply in_map_iff in J1 as (p & [= <- <-] & J1), J2 as (q & [= <- <-] & J2).
    destruct (K1 _ _ I1) as [_ B1], (K1 _ _ I2) as [_ B2]. specialize (B1 _ J1). specialize (B2 _ J2). destruct (K2 _ _ _ _ _ _ Ne I1 I2 J1 J2) as [H|H]; unfold before in H; lia.
  - intros id s a b c o1 n1 o2 n2 I Es. apply G in I. destruct (K1 _ _ I) as [O B]. unfold stencils in Es. clear - O Es.
    revert a Es. induction O as [|p l Fp _ IH]; intros a Es; [destruct a; discriminate|]. cbn [map] in Es. destruct a as [|x a]; cbn [app] in Es.
    + injection Es as <- <- Es. assert (In (o2, n2) (map (fun p => (p_header p, p_data p - p_header p + p_size p)) l)) as I by (rewrite Es, in_app_iff; right; now left).
      apply in_map_iff in I as (q & [= <- <-] & I). rewrite Forall_forall in Fp. specialize (Fp q I). unfold before in Fp. lia.
    + injection Es as _ Es. eapply IH; eauto.
Qed.

(** Not so, wanted: a file is not accepted if the numbers of the pages of a stream do not increase.  The number of the last page is never
    noted, so that the check compares with -1. *)
Definition sample (first last : bool) (serial number : Z) (body : list Z) : opage :=
  mkOPage first last false [0; 0; 0; 0; 0; 0; 0; 0] serial number [0; 0; 0; 0] [Z.of_nat (List.length body)] body.

Theorem C108_numbers_refuted : ~ forall ps rows, Forall proper ps -> valid ps -> listing (bytes_of ps) = Ok rows ->
  forall a p b q c, ps = a ++ p :: b ++ q :: c -> o_serial p = o_serial q -> o_number p < o_number q.
Proof.
  intros H. set (p := sample true false 7 5 [1; 2]). set (q := sample false true 7 3 [4]).
  assert (Forall proper [p; q]) as F by (repeat constructor; cbn; try lia).
  assert (valid [p; q]) as V.
  { intros a x b E. destruct a as [|y a]; cbn [app] in E.
    - injection E as <- _. split; [split; reflexivity|intros ? []].
    - injection E as <- E. destruct a as [|z a]; [|injection E as _ E; destruct a; discriminate]. injection E as <- _. cbn. split; [split; discriminate|intros ? [<-|[]]; reflexivity]. }
  destruct (listing (bytes_of [p; q])) as [rows|] eqn:E; [|discriminate E]. specialize (H [p; q] rows F V E [] p [] q [] eq_refl eq_refl). cbn in H. lia.
Qed.

(** Not so, wanted: all pages of an accepted file are shown.  When a stream begins with the number of one that ended, only the later
    one is shown. *)
Theorem C108_all_shown_refuted : ~ forall ps rows, Forall proper ps -> listing (bytes_of ps) = Ok rows ->
  Z.of_nat (List.length (bytes_of ps)) = fold_right Z.add 0 (map (fun row => snd (fst row)) rows).
Proof.
  intros H. set (ps := [sample true true 7 0 [1]; sample true true 7 0 [2]]).
  assert (Forall proper ps) as F by (repeat constructor; cbn; try lia).
  destruct (listing (bytes_of ps)) as [rows|] eqn:E; [|discriminate E]. specialize (H ps rows F E). injection E as <-. vm_compute in H. discriminate H.
Qed.

(** Not so, wanted: the listed size is the number of bytes that can be read.  The last page of a file that was cut off counts in full. *)
Theorem C108_size_refuted : ~ forall file rows nm sz content, Forall byte file -> listing file = Ok rows -> In (nm, sz, content) rows ->
  sz = Z.of_nat (List.length content).
Proof.
  intros H. set (file := firstn 30 (encode (sample true false 7 0 [1; 2; 3; 4; 5]))).
  assert (Forall byte file) as F. { repeat constructor; cbn; lia. }
  destruct (listing file) as [rows|] eqn:E; [|discriminate E]. destruct rows as [|[[nm sz] c] rows]; [discriminate E|]. specialize (H file _ nm sz c F E (or_introl eq_refl)).
  vm_compute in E. injection E as _ <- <- _. discriminate H.
Qed.

(** The hypotheses are met: two streams with interleaved pages, one of them cut short by the end of the file. *)
Example C108_cases :
  let a := sample true false 16 0 (codes "OpusHead") in let b := sample true false 4294967295 0 (1 :: codes "video") in
  let a2 := sample false true 16 1 [9] in let b2 := sample false false 4294967295 1 [8; 8] in
  Forall proper [a; b; a2; b2] /\ valid [a; b; a2; b2] /\
  listing (bytes_of [a; b; a2; b2] ++ [1; 2; 3]) =
    Ok [($"audio_00000010.oga", 65, encode a ++ encode a2); ($"video_ffffffff.ogm", 64, encode b ++ encode b2)].
Proof.
  cbv zeta. split; [repeat constructor; cbn; try lia|]. split; [|reflexivity].
  intros a x b E. destruct a as [|y0 a]; cbn [app] in E; [injection E as <- _; cbn; split; [split; reflexivity|intros ? []]|injection E as <- E].
  destruct a as [|y1 a]; cbn [app] in E; [injection E as <- _; cbn; split; [split; reflexivity|intros ? []]|injection E as <- E].
  destruct a as [|y2 a]; cbn [app] in E; [injection E as <- _; cbn; split; [split; discriminate|intros ? [<-|[]]; reflexivity]|injection E as <- E].
  destruct a as [|y3 a]; cbn [app] in E; [injection E as <- _; cbn; split; [split; discriminate|intros ? [<-|[]]; reflexivity]|injection E as _ E; destruct a; discriminate].
Qed.

Print Assumptions C108_demultiplexed.
Print Assumptions C108_again.
Print Assumptions C108_separate.
Print Assumptions C108_numbers_refuted.
Print Assumptions C108_all_shown_refuted.
Print Assumptions C108_size_refuted.
