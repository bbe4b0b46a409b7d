(** Proofs about the view on OGG files. *)
From Coq Require Import Ascii String.
From Verif Require Import PyBase PyStr PyDict Ogg_Model Ogg_Spec.
Local Open Scope Z_scope.

Lemma slice_mid {A} (a b c : list A) : zslice (a ++ b ++ c) (len a) (len b) = b.
Proof.
  pose proof (len_nonneg b). rewrite zslice_app_r by lia. replace (len a - len a) with 0 by lia. rewrite zslice_app_l by lia. apply zslice_full. lia.
Qed.

Lemma list_eqb_spec a : forall b, reflect (a = b) (list_eqb a b).
Proof.
  induction a as [|x a IH]; intros [|y b]; cbn [list_eqb]; try (constructor; congruence).
  destruct (Z.eqb_spec x y) as [->|N]; cbn [andb]; [|constructor; congruence]. destruct (IH b) as [->|N]; constructor; congruence.
Qed.

Lemma sum_fold l : sum l = fold_right Z.add 0 l.
Proof. reflexivity. Qed.

Lemma sum_app a b : sum (a ++ b) = sum a + sum b.
Proof. unfold sum. induction a as [|x a IH]; cbn [app fold_right]; [reflexivity|]. rewrite IH. lia. Qed.

(** ** One page *)
Definition head (p : opage) : list Z :=
  [79; 103; 103; 83; 0; bit (o_continued p) 1 + bit (o_first p) 2 + bit (o_last p) 4] ++ o_granule p ++ bytes4 (o_serial p) ++ bytes4 (o_number p) ++
  o_crc p ++ [Z.of_nat (List.length (o_lacing p))].

Lemma encode_head p : encode p = head p ++ o_lacing p ++ o_body p.
Proof. unfold encode, head. now rewrite <- !app_assoc. Qed.

Lemma len_head p : proper p -> len (head p) = 27.
Proof. intros (G & C & _). unfold head, len, bytes4. rewrite !app_length. cbn [List.length]. lia. Qed.

Lemma le_bytes4 z : 0 <= z < 2 ^ 32 -> le_int (bytes4 z) = z.
Proof.
  intros B. unfold bytes4. cbn [le_int]. change (2 ^ 32) with 4294967296 in B.
  pose proof (Z.div_mod z 256 ltac:(lia)). pose proof (Z.div_mod (z / 256) 256 ltac:(lia)). pose proof (Z.div_mod (z / 65536) 256 ltac:(lia)).
  assert (z / 256 / 256 = z / 65536) as E1 by (rewrite Z.div_div by lia; reflexivity).
  assert (z / 65536 / 256 = z / 16777216) as E2 by (rewrite Z.div_div by lia; reflexivity).
  rewrite (Z.mod_small (z / 16777216)); [lia|]. split; [apply Z.div_pos; lia|apply Z.div_lt_upper_bound; lia].
Qed.

Definition flags_of (p : opage) : Z := bit (o_continued p) 1 + bit (o_first p) 2 + bit (o_last p) 4.

Lemma flag_first p : negb (Z.land (flags_of p) 2 =? 0) = o_first p.
Proof. unfold flags_of. now destruct (o_continued p), (o_first p), (o_last p). Qed.
Lemma flag_last p : negb (Z.land (flags_of p) 4 =? 0) = o_last p.
Proof. unfold flags_of. now destruct (o_continued p), (o_first p), (o_last p). Qed.

Lemma parse_header_head p : proper p ->
  parse_header (head p) = Ok (mkHeader 0 (flags_of p) (o_serial p) (o_number p) (Z.of_nat (List.length (o_lacing p)))).
Proof.
  intros (G & C & S & N & _). pose proof (le_bytes4 _ S) as LS. pose proof (le_bytes4 _ N) as LN. unfold parse_header, head. fold (flags_of p).
  destruct (o_granule p) as [|g0 [|g1 [|g2 [|g3 [|g4 [|g5 [|g6 [|g7 [|]]]]]]]]]; try discriminate.
  destruct (o_crc p) as [|c0 [|c1 [|c2 [|c3 [|]]]]]; try discriminate.
  generalize dependent (flags_of p). intros fl. generalize dependent (Z.of_nat (List.length (o_lacing p))). intros ln.
  unfold bytes4 in *. set (a0 := o_serial p mod 256) in *. set (a1 := o_serial p / 256 mod 256) in *. set (a2 := o_serial p / 65536 mod 256) in *. set (a3 := o_serial p / 16777216 mod 256) in *.
  set (b0 := o_number p mod 256) in *. set (b1 := o_number p / 256 mod 256) in *. set (b2 := o_number p / 65536 mod 256) in *. set (b3 := o_number p / 16777216 mod 256) in *.
  clearbody a0 a1 a2 a3 b0 b1 b2 b3. cbn [app].
  change (ztake 4 _) with [79; 103; 103; 83]. cbn [list_eqb Z.eqb Pos.eqb andb negb].
  change (zslice _ 4 1) with [0]. change (zslice _ 5 1) with [fl]. change (zslice _ 14 4) with [a0; a1; a2; a3]. change (zslice _ 18 4) with [b0; b1; b2; b3]. change (zslice _ 26 1) with [ln].
  rewrite LS, LN. change (le_int [0]) with 0. cbn [le_int h_version]. cbn [Z.eqb negb]. do 2 f_equal; lia.
Qed.

Definition page_at (pos : Z) (p : opage) : page := mkPage pos (pos + 27 + len (o_lacing p)) (len (o_body p)).

Lemma len_encode p : proper p -> len (encode p) = 27 + len (o_lacing p) + len (o_body p).
Proof. intros P. rewrite encode_head, !len_app, (len_head p P). lia. Qed.

Lemma step_page pre p post open complete : proper p ->
  page_step (pre ++ encode p ++ post) (len pre) open complete =
  (if negb (Bool.eqb (o_first p) (negb (dmem Z.eqb open (o_serial p)))) then Err ValueError
   else
     let open := if dmem Z.eqb open (o_serial p) then open
                 else dset Z.eqb open (o_serial p) (mkStream (fst (detect (o_body p))) (snd (detect (o_body p))) (-1) []) in
     match dget Z.eqb open (o_serial p) with
     | None => Err KeyError
     | Some s =>
         if o_number p <=? s_last s then Err ValueError
         else let s := mkStream (s_media s) (s_subtype s) (s_last s) (s_pages s ++ [page_at (len pre) p]) in
              if o_last p then Ok (Some (len pre + len (encode p), ddel Z.eqb open (o_serial p), dset Z.eqb complete (o_serial p) s))
              else Ok (Some (len pre + len (encode p), dset Z.eqb open (o_serial p) s, complete))
     end).
Proof.
  intros P. pose proof (len_head p P) as LH. pose proof P as (_ & _ & S & N & _ & _ & SB).
  assert (zslice (pre ++ encode p ++ post) (len pre) 27 = head p) as E1.
  { rewrite <- LH, encode_head, <- !app_assoc. apply slice_mid. }
  assert (zslice (pre ++ encode p ++ post) (len pre + 27) (Z.of_nat (List.length (o_lacing p))) = o_lacing p) as E2.
  { rewrite <- LH, encode_head, <- !app_assoc. rewrite <- len_app. rewrite (app_assoc pre (head p)). apply slice_mid. }
  assert (zslice (pre ++ encode p ++ post) (len pre + 27 + len (o_lacing p)) (len (o_body p)) = o_body p) as E3.
  { replace (pre ++ encode p ++ post) with (((pre ++ head p) ++ o_lacing p) ++ o_body p ++ post) by (rewrite encode_head, <- !app_assoc; reflexivity).
    replace (len pre + 27 + len (o_lacing p)) with (len ((pre ++ head p) ++ o_lacing p)) by (rewrite !len_app; lia). apply slice_mid. }
  unfold page_step. rewrite E1, LH. cbn [Z.ltb Z.compare Pos.compare Pos.compare_cont]. rewrite (parse_header_head p P). cbn [bind h_stream h_segments h_flags h_sequence].
  rewrite E2. change (sum (o_lacing p)) with (fold_right Z.add 0 (o_lacing p)). rewrite SB. change (Z.of_nat (List.length (o_body p))) with (len (o_body p)). rewrite E3, flag_first, flag_last.
  destruct (negb _); [reflexivity|]. cbv zeta. rewrite (len_encode p P).
  replace (let '(media, sub) := detect (o_body p) in mkStream media sub (-1) []) with (mkStream (fst (detect (o_body p))) (snd (detect (o_body p))) (-1) []) by now destruct (detect (o_body p)).
  destruct (dget _ _ _) as [s|]; [|reflexivity]. destruct (_ <=? _); [reflexivity|]. unfold page_at.
  replace (len pre + (27 + len (o_lacing p) + len (o_body p))) with (len pre + 27 + len (o_lacing p) + len (o_body p)) by lia. reflexivity.
Qed.

(** ** All pages *)
Fixpoint spans (base : Z) (ps : list opage) (id : Z) : list page :=
  match ps with
  | [] => []
  | p :: r => (if o_serial p =? id then [page_at base p] else []) ++ spans (base + len (encode p)) r id
  end.

Lemma bytes_of_app a b : bytes_of (a ++ b) = bytes_of a ++ bytes_of b.
Proof. unfold bytes_of. now rewrite map_app, concat_app. Qed.
Lemma bytes_of_cons p b : bytes_of (p :: b) = encode p ++ bytes_of b.
Proof. reflexivity. Qed.
Lemma bytes_of_one p : bytes_of [p] = encode p.
Proof. unfold bytes_of. cbn. now rewrite app_nil_r. Qed.

Lemma spans_app base a b id : spans base (a ++ b) id = spans base a id ++ spans (base + len (bytes_of a)) b id.
Proof.
  revert base. induction a as [|p a IH]; intros base; cbn [app spans].
  - change (len (bytes_of [])) with 0. now rewrite Z.add_0_r.
  - rewrite IH, bytes_of_cons, len_app, <- app_assoc. do 3 f_equal. lia.
Qed.

Lemma of_stream_app id a b : of_stream id (a ++ b) = of_stream id a ++ of_stream id b.
Proof. apply filter_app. Qed.

Definition expected (a : list opage) (id : Z) : option stream :=
  match of_stream id a with
  | [] => None
  | q :: _ => Some (mkStream (fst (detect (o_body q))) (snd (detect (o_body q))) (-1) (spans 0 a id))
  end.
Definition ended (a : list opage) (id : Z) : bool := existsb o_last (of_stream id a).

Definition inv (a : list opage) (open complete : streams) : Prop :=
  NoDup (dkeys open) /\ NoDup (dkeys complete) /\
  (forall id, dget Z.eqb open id = if ended a id then None else expected a id) /\
  (forall id, dget Z.eqb complete id = if ended a id then expected a id else None).

Lemma expected_other a p id : o_serial p <> id -> expected (a ++ [p]) id = expected a id /\ ended (a ++ [p]) id = ended a id.
Proof.
  intros N. unfold expected, ended. rewrite of_stream_app, spans_app. cbn [of_stream filter spans]. destruct (Z.eqb_spec (o_serial p) id) as [|_]; [contradiction|].
  cbn [app]. rewrite !app_nil_r. auto.
Qed.

Lemma spans_nil base a id : of_stream id a = [] -> spans base a id = [].
Proof.
  revert base. induction a as [|p a IH]; intros base; cbn [of_stream filter spans]; [reflexivity|].
  destruct (o_serial p =? id); [discriminate|]. apply IH.
Qed.

Lemma existsb_false_all {X} (f : X -> bool) l : (forall x, In x l -> f x = false) -> existsb f l = false.
Proof. induction l as [|x l IH]; cbn; intros H; [reflexivity|]. rewrite (H x (or_introl eq_refl)). apply IH. auto. Qed.

Lemma step_inv a p post open complete : proper p ->
  (o_first p = true <-> of_stream (o_serial p) a = []) -> (forall q, In q (of_stream (o_serial p) a) -> o_last q = false) ->
  inv a open complete ->
  exists open' complete', page_step (bytes_of a ++ encode p ++ post) (len (bytes_of a)) open complete = Ok (Some (len (bytes_of (a ++ [p])), open', complete'))
    /\ inv (a ++ [p]) open' complete'.
Proof.
  intros P Hf Hl (N1 & N2 & I1 & I2). rewrite (step_page _ _ _ _ _ P). set (id := o_serial p) in *.
  assert (ended a id = false) as En by now apply existsb_false_all.
  pose proof (I1 id) as O1. rewrite En in O1. pose proof (I2 id) as O2. rewrite En in O2.
  assert (len (bytes_of a) + len (encode p) = len (bytes_of (a ++ [p]))) as LL by (rewrite bytes_of_app, bytes_of_one, len_app; reflexivity).
  assert (exists s0, expected (a ++ [p]) id = Some (mkStream (s_media s0) (s_subtype s0) (-1) (s_pages s0 ++ [page_at (len (bytes_of a)) p])) /\ s_last s0 = -1 /\
    negb (Bool.eqb (o_first p) (negb (dmem Z.eqb open id))) = false /\
    dget Z.eqb (if dmem Z.eqb open id then open else dset Z.eqb open id (mkStream (fst (detect (o_body p))) (snd (detect (o_body p))) (-1) [])) id = Some s0) as (s0 & X1 & X2 & X3 & X4).
  { unfold expected in *. rewrite of_stream_app, spans_app. cbn [of_stream filter spans]. fold id. rewrite Z.eqb_refl, app_nil_r. rewrite Z.add_0_l. unfold dmem.
    destruct (of_stream id a) as [|q l] eqn:Eo.
    - rewrite O1. rewrite (proj2 Hf eq_refl). rewrite (spans_nil _ _ _ Eo). cbn [app]. eexists. split; [|split; [|split; [reflexivity|apply dget_dset_same, Z.eqb_spec]]]; reflexivity.
    - rewrite O1. destruct (o_first p) eqn:Ef; [discriminate (proj1 Hf eq_refl)|]. cbn [app]. eexists. split; [|split; [|split; [reflexivity|exact O1]]]; reflexivity. }
  rewrite X3. cbv zeta. unfold streams in *.
  set (open1 := if dmem Z.eqb open id then open else _) in *. rewrite X4, X2.
  assert (o_number p <=? -1 = false) as -> by (destruct P as (_ & _ & _ & B & _); lia).
  assert (NoDup (dkeys open1)) as N3 by (unfold open1; destruct (dmem _ _ _); [exact N1|apply NoDup_dset; [apply Z.eqb_spec|exact N1]]).
  assert (forall k, k <> id -> dget Z.eqb open1 k = dget Z.eqb open k) as G1.
  { intros k Nk. unfold open1. destruct (dmem _ _ _); [reflexivity|]. apply dget_dset_other; [apply Z.eqb_spec|exact Nk]. }
  assert (ended (a ++ [p]) id = o_last p) as Ep.
  { unfold ended in *. rewrite of_stream_app, existsb_app, En. cbn [of_stream filter]. fold id. rewrite Z.eqb_refl. cbn. now destruct (o_last p). }
  destruct (o_last p) eqn:El; rewrite LL; eexists; eexists; (split; [reflexivity|]).
  - split; [apply NoDup_ddel; [apply Z.eqb_spec|exact N3]|]. split; [apply NoDup_dset; [apply Z.eqb_spec|exact N2]|]. split; intros k.
    + rewrite (dget_ddel _ Z.eqb_spec) by exact N3. destruct (Z.eqb_spec k id) as [->|Nk].
      * now rewrite Ep.
      * rewrite (G1 k Nk), I1. destruct (expected_other a p k) as [-> ->]; [fold id; congruence|reflexivity].
    + rewrite (dget_dset _ Z.eqb_spec). destruct (Z.eqb_spec k id) as [->|Nk].
      * rewrite Ep. now rewrite X1.
      * rewrite I2. destruct (expected_other a p k) as [-> ->]; [fold id; congruence|reflexivity].
  - split; [apply NoDup_dset; [apply Z.eqb_spec|exact N3]|]. split; [exact N2|]. split; intros k.
    + rewrite (dget_dset _ Z.eqb_spec). destruct (Z.eqb_spec k id) as [->|Nk].
      * rewrite Ep. now rewrite X1.
      * rewrite (G1 k Nk), I1. destruct (expected_other a p k) as [-> ->]; [fold id; congruence|reflexivity].
    + destruct (Z.eq_dec k id) as [->|Nk].
      * now rewrite Ep.
      * rewrite I2. destruct (expected_other a p k) as [-> ->]; [fold id; congruence|reflexivity].
Qed.

Lemma loop_pages b : forall fuel a tail open complete, Forall proper b -> valid (a ++ b) -> len tail < 27 -> inv a open complete -> (List.length b < fuel)%nat ->
  exists open' complete', inv (a ++ b) open' complete' /\
    parse_loop fuel (bytes_of a ++ bytes_of b ++ tail) (len (bytes_of a)) open complete = Ok (dupdate Z.eqb complete' open').
Proof.
  induction b as [|p b IH]; intros fuel a tail open complete Fb V T I Fu; (destruct fuel as [|fuel]; [lia|]); cbn [parse_loop].
  - change (bytes_of []) with (@nil Z). rewrite app_nil_r. exists open, complete. split; [exact I|]. unfold page_step. cbn [app].
    rewrite zslice_app_r by lia. replace (len (bytes_of a) - len (bytes_of a)) with 0 by lia. rewrite zslice_full by lia.
    destruct (len tail <? 27) eqn:L; [reflexivity|lia].
  - apply Forall_cons_iff in Fb as [Pp Fb]. destruct (V a p b eq_refl) as [Hf Hl]. rewrite bytes_of_cons, <- app_assoc.
    destruct (step_inv a p (bytes_of b ++ tail) open complete Pp Hf Hl I) as (o' & c' & -> & I').
    assert (bytes_of a ++ encode p ++ bytes_of b ++ tail = bytes_of (a ++ [p]) ++ bytes_of b ++ tail) as -> by (rewrite bytes_of_app, bytes_of_one, <- app_assoc; reflexivity).
    replace (a ++ p :: b) with ((a ++ [p]) ++ b) in * by now rewrite <- app_assoc.
    apply IH; auto. cbn [List.length] in Fu. lia.
Qed.

Lemma bytes_of_length ps : (List.length ps <= List.length (bytes_of ps))%nat.
Proof. induction ps as [|p ps IH]; [cbn; lia|]. rewrite bytes_of_cons, app_length. unfold encode. rewrite app_length. cbn [List.length]. lia. Qed.

Lemma parse_pages ps tail : Forall proper ps -> valid ps -> len tail < 27 ->
  exists ss, parse (bytes_of ps ++ tail) = Ok ss /\ NoDup (dkeys ss) /\ forall id, dget Z.eqb ss id = expected ps id.
Proof.
  intros F V T. destruct (loop_pages ps (S (List.length (bytes_of ps ++ tail))) [] tail [] [] F V T) as (o & c & (N1 & N2 & I1 & I2) & E).
  - repeat split; try (constructor); intros id; reflexivity.
  - rewrite app_length. pose proof (bytes_of_length ps). lia.
  - exists (dupdate Z.eqb c o). split; [exact E|]. split; [apply NoDup_dupdate; [apply Z.eqb_spec|exact N2]|]. intros id. cbn [app] in *.
    rewrite (dget_dupdate _ Z.eqb_spec) by exact N1. rewrite I1, I2. destruct (ended ps id); [reflexivity|]. now destruct (expected ps id).
Qed.

(** ** What is shown *)
Lemma content_spans ps id : forall pre tail, Forall proper ps ->
  concat (map (fun '(offset, n) => zslice (pre ++ bytes_of ps ++ tail) offset n)
    (map (fun p => (p_header p, p_data p - p_header p + p_size p)) (spans (len pre) ps id))) = bytes_of (of_stream id ps) /\
  sum (map snd (map (fun p => (p_header p, p_data p - p_header p + p_size p)) (spans (len pre) ps id))) = len (bytes_of (of_stream id ps)).
Proof.
  induction ps as [|p ps IH]; intros pre tail F; [split; reflexivity|]. apply Forall_cons_iff in F as [Pp F].
  rewrite bytes_of_cons, <- app_assoc. cbn [spans of_stream filter]. rewrite !map_app, concat_app, sum_app.
  specialize (IH (pre ++ encode p) tail F). rewrite <- app_assoc, len_app in IH. destruct IH as [IH1 IH2]. rewrite IH1, IH2.
  destruct (o_serial p =? id); [|split; reflexivity]. rewrite bytes_of_cons, len_app. unfold of_stream.
  assert (p_data (page_at (len pre) p) - p_header (page_at (len pre) p) + p_size (page_at (len pre) p) = len (encode p)) as EL by (rewrite (len_encode p Pp); unfold page_at; cbn [p_data p_header p_size]; lia).
  cbn [map concat sum fold_right snd]. rewrite EL. change (p_header (page_at (len pre) p)) with (len pre). rewrite app_nil_r. split; [|lia].
  f_equal. apply slice_mid.
Qed.

(** ** Names *)
Lemma bytes_start_spec p : forall s, bytes_start p s = true <-> exists r, s = p ++ r.
Proof.
  induction p as [|x p IH]; intros s; cbn [bytes_start app].
  - split; [intros _; eauto|reflexivity].
  - destruct s as [|y s]; [split; [discriminate|intros (r & [=])]|]. rewrite andb_true_iff, IH. split.
    + intros [E (r & ->)]. apply Z.eqb_eq in E as ->. eauto.
    + intros (r & [= -> ->]). split; [apply Z.eqb_refl|eauto].
Qed.

Lemma hex_digit_value d : 0 <= d < 16 -> hex_value_of (hex_digit d) = d.
Proof.
  intros B. assert (d = 0 \/ d = 1 \/ d = 2 \/ d = 3 \/ d = 4 \/ d = 5 \/ d = 6 \/ d = 7 \/ d = 8 \/ d = 9 \/ d = 10 \/ d = 11 \/ d = 12 \/ d = 13 \/ d = 14 \/ d = 15) as H by lia.
  repeat (destruct H as [->|H]; [reflexivity|]). subst. reflexivity.
Qed.

Lemma hex8_value z : 0 <= z < 2 ^ 32 -> hex_value (hex8 z) = z.
Proof.
  intros B. change (2 ^ 32) with 4294967296 in B. unfold hex8, hex_value. cbn [map fold_left]. rewrite !hex_digit_value by (apply Z.mod_pos_bound; lia).
  change (16 ^ 7) with 268435456. change (16 ^ 6) with 16777216. change (16 ^ 5) with 1048576. change (16 ^ 4) with 65536.
  change (16 ^ 3) with 4096. change (16 ^ 2) with 256. change (16 ^ 1) with 16. change (16 ^ 0) with 1. rewrite Z.div_1_r.
  assert (forall k, 0 < k -> z / (k * 16) = z / k / 16) as D by (intros k K; rewrite Z.div_div by lia; reflexivity).
  pose proof (D 1 ltac:(lia)). pose proof (D 16 ltac:(lia)). pose proof (D 256 ltac:(lia)). pose proof (D 4096 ltac:(lia)). pose proof (D 65536 ltac:(lia)).
  pose proof (D 1048576 ltac:(lia)). pose proof (D 16777216 ltac:(lia)). rewrite Z.div_1_r in *. cbn [Z.mul Pos.mul] in *.
  pose proof (Z.div_mod z 16 ltac:(lia)). pose proof (Z.div_mod (z/16) 16 ltac:(lia)). pose proof (Z.div_mod (z/256) 16 ltac:(lia)). pose proof (Z.div_mod (z/4096) 16 ltac:(lia)).
  pose proof (Z.div_mod (z/65536) 16 ltac:(lia)). pose proof (Z.div_mod (z/1048576) 16 ltac:(lia)). pose proof (Z.div_mod (z/16777216) 16 ltac:(lia)).
  rewrite (Z.mod_small (z / 268435456) 16); [lia|]. split; [apply Z.div_pos; lia|apply Z.div_lt_upper_bound; lia].
Qed.

Lemma detect_kind body : kind body (fst (detect body)) (extension (mkStream (fst (detect body)) (snd (detect body)) (-1) [])).
Proof.
  unfold detect.
  assert (forall table, (forall media codec magic, In (media, codec, magic) table -> In (magic, media, extension (mkStream media codec (-1) [])) known) ->
    (exists magic rest, In (magic, fst (detect_in table body), extension (mkStream (fst (detect_in table body)) (snd (detect_in table body)) (-1) [])) known /\ body = magic ++ rest) \/
    ((forall media codec magic rest, In (media, codec, magic) table -> body <> magic ++ rest) /\ detect_in table body = ($"unknown", $"unknown"))) as K.
  { induction table as [|[[m c] g] table IH]; intros H; cbn [detect_in].
    - right. split; [intros ? ? ? ? []|reflexivity].
    - destruct (bytes_start g body) eqn:B.
      + apply bytes_start_spec in B as (r & ->). left. exists g, r. split; [apply H; now left|reflexivity].
      + destruct IH as [D|[D1 D2]]; [intros; apply H; now right|left; exact D|]. right. split; [|exact D2]. intros media codec magic rest [E|I]; [|eapply D1; eauto].
        injection E as -> -> ->. intros ->. assert (bytes_start magic (magic ++ rest) = true) by (apply bytes_start_spec; eauto). congruence. }
  destruct (K codecs) as [D|[D1 D2]].
  - clear K. intros media codec magic I. unfold codecs in I. cbn [In] in I.
    repeat (destruct I as [I|I]; [injection I as <- <- <-; vm_compute; tauto|]). destruct I.
  - left. exact D.
  - right. rewrite D2. split; [|split; reflexivity]. intros magic m e rest I. unfold known in I. cbn [In] in I.
    assert (exists media codec, In (media, codec, magic) codecs) as (media & codec & Ic).
    { repeat (destruct I as [I|I]; [injection I as <- <- <-; eexists; eexists; vm_compute; tauto|]). destruct I. }
    eapply D1; eauto.
Qed.

Lemma detect_media body : In (fst (detect body)) [$"audio"; $"video"; $"text"; $"unknown"].
Proof.
  destruct (detect_kind body) as [(g & r & I & _)|(_ & -> & _)]; [|cbn; tauto]. revert I. generalize (extension (mkStream (fst (detect body)) (snd (detect body)) (-1) [])). generalize (fst (detect body)).
  intros m e I. unfold known in I. cbn [In] in I. repeat (destruct I as [I|I]; [injection I as _ <- _; cbn; tauto|]). destruct I.
Qed.

Lemma name_id id1 id2 s1 s2 : 0 <= id1 < 2 ^ 32 -> 0 <= id2 < 2 ^ 32 ->
  In (s_media s1) [$"audio"; $"video"; $"text"; $"unknown"] -> In (s_media s2) [$"audio"; $"video"; $"text"; $"unknown"] ->
  name id1 s1 = name id2 s2 -> id1 = id2.
Proof.
  intros B1 B2 M1 M2 E. rewrite <- (hex8_value id1 B1), <- (hex8_value id2 B2). f_equal.
  assert (forall e1 e2 h1 h2, List.length h1 = 8%nat -> List.length h2 = 8%nat -> h1 ++ e1 = h2 ++ e2 -> h1 = h2 :> str) as K.
  { intros e1 e2 h1 h2 L1 L2 Q. apply (f_equal (firstn 8)) in Q. rewrite !firstn_app, L1, L2, Nat.sub_diag, !firstn_O, !app_nil_r, !firstn_all2 in Q by lia. exact Q. }
  unfold name in E. apply (K (extension s1) (extension s2)); try reflexivity.
  revert E. generalize (hex8 id1 ++ extension s1) (hex8 id2 ++ extension s2). intros t1 t2.
  destruct M1 as [<-|[<-|[<-|[<-|[]]]]], M2 as [<-|[<-|[<-|[<-|[]]]]]; cbn; intros E; injection E; congruence.
Qed.

(** ** Arbitrary files: pages do not overlap *)
Definition pages_in (d : streams) (id : Z) : list page := match dget Z.eqb d id with Some s => s_pages s | None => [] end.
Definition at_key (open complete : streams) (k : bool * Z) : list page := pages_in (if fst k then open else complete) (snd k).
Definition before (p q : page) : Prop := p_data p + p_size p <= p_header q.
Definition apart (p q : page) : Prop := before p q \/ before q p.

Definition inv2 (open complete : streams) (pos : Z) : Prop :=
  NoDup (dkeys open) /\ NoDup (dkeys complete) /\
  (forall k p, In p (at_key open complete k) -> 0 <= p_header p <= p_data p /\ 0 <= p_size p /\ p_data p + p_size p <= pos) /\
  (forall k1 k2 p q, k1 <> k2 -> In p (at_key open complete k1) -> In q (at_key open complete k2) -> apart p q) /\
  (forall k, ForallOrdPairs before (at_key open complete k)).

Lemma sum_nonneg l : Forall byte l -> 0 <= sum l.
Proof. unfold sum. induction 1 as [|x l H _ IH]; cbn [fold_right]; [lia|]. unfold byte in H. lia. Qed.

Lemma zslice_Forall {A} (P : A -> Prop) l o n : Forall P l -> Forall P (zslice l o n).
Proof.
  intros F. apply Forall_forall. intros x I. rewrite Forall_forall in F. apply F. unfold zslice, ztake, zskip in I.
  assert (forall (m : list A) k, In x (firstn k m) -> In x m) as K1 by (intros m k; rewrite <- (firstn_skipn k m) at 2; rewrite in_app_iff; auto).
  assert (forall (m : list A) k, In x (skipn k m) -> In x m) as K2 by (intros m k; rewrite <- (firstn_skipn k m) at 2; rewrite in_app_iff; auto).
  eapply K2, K1, I.
Qed.

Lemma FOP_snoc {X} (R : X -> X -> Prop) l x : ForallOrdPairs R l -> (forall y, In y l -> R y x) -> ForallOrdPairs R (l ++ [x]).
Proof.
  induction 1 as [|y l F P IH]; intros H; cbn [app].
  - constructor; [constructor|constructor].
  - constructor; [|apply IH; auto using in_cons]. apply Forall_app. split; [exact F|]. constructor; [apply H; now left|constructor].
Qed.

Lemma step_inv2 file pos open complete next open' complete' : Forall byte file -> 0 <= pos -> inv2 open complete pos ->
  page_step file pos open complete = Ok (Some (next, open', complete')) -> inv2 open' complete' next /\ pos < next.
Proof.
  intros Fb P0 (N1 & N2 & I1 & I2 & I3). unfold page_step. destruct (len (zslice file pos 27) <? 27); [discriminate|].
  destruct (parse_header _) as [h|]; cbn [bind]; [|discriminate]. set (id := h_stream h). set (table := zslice file (pos + 27) (h_segments h)).
  assert (0 <= sum table) as Ps by (apply sum_nonneg, zslice_Forall, Fb). pose proof (len_nonneg table) as Pl.
  destruct (negb _); [discriminate|]. set (new := match detect _ with (_, _) => _ end).
  assert (s_pages new = []) as En by (unfold new; now destruct (detect _)). clearbody new.
  change streams with (@dict Z stream) in *.
  set (open1 := if dmem Z.eqb open id then open else dset Z.eqb open id new).
  assert (NoDup (dkeys open1)) as N3 by (unfold open1; destruct (dmem _ _ _); [exact N1|apply NoDup_dset; [apply Z.eqb_spec|exact N1]]).
  assert (forall k, pages_in open1 k = pages_in open k) as Q1.
  { intros k. unfold open1, pages_in, dmem. destruct (dget Z.eqb open id) eqn:E; [reflexivity|]. rewrite (dget_dset _ Z.eqb_spec). destruct (Z.eqb_spec k id) as [->|]; [|reflexivity]. now rewrite E, En. }
  destruct (dget Z.eqb open1 id) as [s|] eqn:Es; [|discriminate].
  assert (s_pages s = pages_in open id) as Q2 by (rewrite <- Q1; unfold pages_in; now rewrite Es).
  destruct (_ <=? _); [discriminate|]. set (pg := mkPage pos (pos + 27 + len table) (sum table)). set (nxt := pos + 27 + len table + sum table).
  set (s' := mkStream _ _ _ _).
  (* how the new tables look *)
  assert (forall f : bool * Z -> bool * Z, forall o c, NoDup (dkeys o) -> NoDup (dkeys c) ->
     (exists kn, at_key o c kn = at_key open complete (true, id) ++ [pg] /\ f kn = (true, id) /\
       forall k, k <> kn -> (at_key o c k = [] \/ at_key o c k = at_key open complete (f k))) ->
     (forall k1 k2, at_key o c k1 <> [] -> at_key o c k2 <> [] -> k1 <> k2 -> f k1 <> f k2) ->
     inv2 o c nxt) as Done.
  { intros f o c D1 D2 (kn & K1 & Kf & K2) K3.
    assert (forall k p, In p (at_key o c k) -> (k = kn /\ p = pg) \/ In p (at_key open complete (f k))) as M.
    { intros k p Ip. assert (k = kn \/ k <> kn) as [->|Nk] by (destruct k as [b x], kn as [b' x']; destruct (Bool.bool_dec b b'), (Z.eq_dec x x'); [left|right|right|right]; congruence).
      - rewrite K1, in_app_iff in Ip. destruct Ip as [Ip|[<-|[]]]; [right; now rewrite Kf|left; auto].
      - destruct (K2 k Nk) as [E|E]; rewrite E in Ip; [destruct Ip|now right]. }
    split; [exact D1|]. split; [exact D2|]. split; [|split].
    - intros k p Ip. destruct (M k p Ip) as [[_ ->]|Io]; [unfold pg, nxt; cbn [p_header p_data p_size]; lia|]. apply I1 in Io. unfold nxt. lia.
    - intros k1 k2 p q Nk Ip Iq.
      assert (f k1 <> f k2) as Nf by (apply K3; [intros E; rewrite E in Ip; destruct Ip|intros E; rewrite E in Iq; destruct Iq|exact Nk]).
      destruct (M k1 p Ip) as [[-> ->]|Jp], (M k2 q Iq) as [[-> ->]|Jq].
      + congruence.
      + right. unfold before. apply I1 in Jq. unfold pg. cbn [p_header]. lia.
      + left. unfold before. apply I1 in Jp. unfold pg. cbn [p_header]. lia.
      + eapply I2; eauto.
    - intros k. assert (k = kn \/ k <> kn) as [->|Nk] by (destruct k as [b x], kn as [b' x']; destruct (Bool.bool_dec b b'), (Z.eq_dec x x'); [left|right|right|right]; congruence).
      + rewrite K1. apply FOP_snoc; [apply I3|]. intros y Iy. apply I1 in Iy. unfold before, pg. cbn [p_header]. lia.
      + destruct (K2 k Nk) as [-> | ->]; [constructor|apply I3]. }
  assert (s_pages s' = pages_in open id ++ [pg]) as Q3 by (unfold s'; cbn [s_pages]; now rewrite Q2).
  destruct (negb _); intros [= <- <- <-]; (split; [|lia]).
  - apply (Done (fun k => if negb (fst k) && (snd k =? id) then (true, id) else k)).
    + apply NoDup_ddel; [apply Z.eqb_spec|exact N3].
    + apply NoDup_dset; [apply Z.eqb_spec|exact N2].
    + exists (false, id). cbn [fst snd negb andb]. rewrite Z.eqb_refl. split; [|split; [reflexivity|]].
      * unfold at_key at 1. cbn [fst snd]. unfold pages_in at 1. rewrite (dget_dset_same _ Z.eqb_spec). exact Q3.
      * intros [b x] Nk. cbn [fst snd]. destruct b; cbn [negb andb].
        -- unfold at_key. cbn [fst snd]. unfold pages_in at 1 2. rewrite (dget_ddel _ Z.eqb_spec) by exact N3. destruct (Z.eqb_spec x id); [now left|]. right. apply Q1.
        -- destruct (Z.eqb_spec x id) as [->|Nx]; [congruence|]. right. unfold at_key. cbn [fst snd]. unfold pages_in. now rewrite (dget_dset_other _ Z.eqb_spec) by exact Nx.
    + intros [b1 x1] [b2 x2] E1 E2 Nk. cbn [fst snd].
      assert (forall x, at_key (ddel Z.eqb open1 id) (dset Z.eqb complete id s') (true, x) <> [] -> x <> id) as Z1.
      { intros x Hx ->. apply Hx. unfold at_key, pages_in. cbn [fst snd]. rewrite (dget_ddel _ Z.eqb_spec) by exact N3. now rewrite Z.eqb_refl. }
      destruct b1, b2; cbn [negb andb].
      * exact Nk.
      * destruct (Z.eqb_spec x2 id); [|exact Nk]. intros [= ->]. now apply (Z1 id).
      * destruct (Z.eqb_spec x1 id); [|exact Nk]. intros [= <-]. now apply (Z1 id).
      * destruct (Z.eqb_spec x1 id), (Z.eqb_spec x2 id); congruence.
  - apply (Done (fun k => k)).
    + apply NoDup_dset; [apply Z.eqb_spec|exact N3].
    + exact N2.
    + exists (true, id). split; [|split; [reflexivity|]].
      * unfold at_key at 1. cbn [fst snd]. unfold pages_in at 1. rewrite (dget_dset_same _ Z.eqb_spec). exact Q3.
      * intros [b x] Nk. right. destruct b; unfold at_key; cbn [fst snd]; [|reflexivity].
        unfold pages_in at 1. rewrite (dget_dset_other _ Z.eqb_spec) by congruence. apply Q1.
    + auto.
Qed.

Lemma loop_inv2 file : Forall byte file -> forall fuel pos open complete ss, 0 <= pos -> inv2 open complete pos -> parse_loop fuel file pos open complete = Ok ss ->
  exists o c e, ss = dupdate Z.eqb c o /\ inv2 o c e.
Proof.
  intros Fb. induction fuel as [|fuel IH]; intros pos open complete ss P0 I; cbn [parse_loop]; [discriminate|].
  destruct (page_step file pos open complete) as [[[[next o] c]|]|] eqn:E; [| |discriminate].
  - destruct (step_inv2 _ _ _ _ _ _ _ Fb P0 I E) as [I' L]. apply IH; [lia|exact I'].
  - intros [= <-]. eauto.
Qed.

Lemma parse_inv2 file ss : Forall byte file -> parse file = Ok ss ->
  (forall id s, dget Z.eqb ss id = Some s -> ForallOrdPairs before (s_pages s) /\ forall p, In p (s_pages s) -> 0 <= p_header p <= p_data p /\ 0 <= p_size p) /\
  (forall id1 id2 s1 s2 p q, id1 <> id2 -> dget Z.eqb ss id1 = Some s1 -> dget Z.eqb ss id2 = Some s2 -> In p (s_pages s1) -> In q (s_pages s2) -> apart p q) /\
  NoDup (dkeys ss).
Proof.
  intros Fb E. assert (inv2 [] [] 0) as I0.
  { split; [constructor|]. split; [constructor|]. split; [intros [[] ?] ? []|]. split; [intros [[] ?] ? ? ? ? []|]. intros [[] ?]; constructor. }
  destruct (loop_inv2 file Fb _ _ _ _ _ (Z.le_refl 0) I0 E) as (o & c & e & -> & N1 & N2 & I1 & I2 & I3).
  assert (forall id s, dget Z.eqb (dupdate Z.eqb c o) id = Some s -> exists b, s_pages s = at_key o c (b, id)) as K.
  { intros id s. rewrite (dget_dupdate _ Z.eqb_spec) by exact N1. intros H. destruct (dget Z.eqb o id) as [s0|] eqn:Eo.
    - injection H as ->. exists true. unfold at_key, pages_in. cbn [fst snd]. now rewrite Eo.
    - exists false. unfold at_key, pages_in. cbn [fst snd]. now rewrite H. }
  split; [|split].
  - intros id s H. destruct (K _ _ H) as [b ->]. split; [apply I3|]. intros p Ip. apply I1 in Ip. lia.
  - intros id1 id2 s1 s2 p q N H1 H2. destruct (K _ _ H1) as [b1 E1], (K _ _ H2) as [b2 E2]. rewrite E1, E2. apply I2. congruence.
  - apply NoDup_dupdate; [apply Z.eqb_spec|exact N2].
Qed.
