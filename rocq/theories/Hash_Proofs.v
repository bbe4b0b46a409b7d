(** Proofs about file hashes. *)
From Coq Require Import Ascii String Permutation.
From Verif Require Import PyBase PyDict PyStr FileInfo Index_Model Index_Spec Index_Proofs Xattr_Model Xattr_Spec Xattr_Proofs Hash_Model Hash_Spec.
Local Open Scope Z_scope.

(** ** Hexadecimal numbers *)
Lemma hex_digit_value d : 0 <= d < 16 -> digit_value (hex_digit d) = Some d.
Proof.
  intros H. unfold digit_value, hex_digit. destruct (Z.ltb_spec d 10); rewrite nat_ascii_embedding by lia; rewrite Z2Nat.id by lia.
  - destruct (48 <=? 48 + d) eqn:E1; [|apply Z.leb_gt in E1; lia]. destruct (48 + d <=? 57) eqn:E2; [|apply Z.leb_gt in E2; lia]. cbn [andb]. f_equal. lia.
  - destruct (87 + d <=? 57) eqn:E2; [apply Z.leb_le in E2; lia|]. rewrite andb_false_r. destruct (97 <=? 87 + d) eqn:E3; [|apply Z.leb_gt in E3; lia].
    destruct (87 + d <=? 102) eqn:E4; [|apply Z.leb_gt in E4; lia]. cbn [andb]. f_equal. lia.
Qed.
Lemma hex_value_app a : forall acc b, hex_value_from acc (a ++ b) = match hex_value_from acc a with Some v => hex_value_from v b | None => None end.
Proof. induction a as [|c a IH]; intros acc b; [reflexivity|]. cbn [app hex_value_from]. destruct (digit_value c); [apply IH|reflexivity]. Qed.
Lemma hex_value_hex w : forall n, 0 <= n < 16 ^ Z.of_nat w -> hex_value (hex w n) = Some n /\ length (hex w n) = w.
Proof.
  unfold hex_value. induction w as [|w IH]; intros n H; [cbn in *; split; [f_equal; lia|reflexivity]|]. cbn [hex].
  rewrite hex_value_app, app_length. rewrite Nat2Z.inj_succ, Z.pow_succ_r in H by lia.
  destruct (IH (n / 16)) as [E L]; [split; [apply Z.div_pos; lia|apply Z.div_lt_upper_bound; lia]|]. rewrite E, L. cbn [hex_value_from length].
  rewrite hex_digit_value by (apply Z.mod_pos_bound; lia). split; [f_equal; pose proof (Z.div_mod n 16); lia|lia].
Qed.

(** ** Sums *)
Lemma words_app a : forall i b, words_sum i (a ++ b) = words_sum i a + words_sum (i + len a) b.
Proof.
  induction a as [|c a IH]; intros i b; cbn [app words_sum]; [unfold len; cbn [length]; change (Z.of_nat 0) with 0; rewrite Z.add_0_r; lia|]. rewrite IH, len_cons. rewrite Z.add_assoc. f_equal. f_equal. lia.
Qed.
Lemma words_shift data : forall i, words_sum (i + 8) data = words_sum i data.
Proof.
  induction data as [|c r IH]; intros i; [reflexivity|]. cbn [words_sum]. replace (i + 8 + 1) with (i + 1 + 8) by lia. rewrite IH.
  replace (i + 8) with (i + 1 * 8) by lia. now rewrite Z.mod_add by lia.
Qed.
Lemma words_bytes data : forall i, 0 <= i -> i + len data <= 8 -> words_sum i data = 256 ^ i * from_bytes data.
Proof.
  induction data as [|c r IH]; intros i Hi Hl; cbn [words_sum from_bytes]; [lia|]. rewrite len_cons in Hl. pose proof (len_nonneg r).
  rewrite IH by lia. rewrite Z.mod_small by lia. rewrite Z.pow_add_r by lia. unfold byte. change (256 ^ 1) with 256. ring.
Qed.
Lemma from_bytes_zeros data n : from_bytes (data ++ repeat zero n) = from_bytes data.
Proof.
  induction data as [|c r IH]; cbn [app from_bytes]; [|now rewrite IH]. induction n as [|n IH]; [reflexivity|]. cbn [repeat from_bytes]. now rewrite IH.
Qed.

Lemma fold_sum {A} (g : A -> Z) l : forall a, fold_left (fun r x => r + g x) l a = a + fold_left (fun r x => r + g x) l 0.
Proof. induction l as [|x l IH]; intros a; cbn [fold_left]; [lia|]. rewrite IH, (IH (0 + g x)). lia. Qed.

Lemma accumulate_cons data : data <> [] -> accumulate data = from_bytes (zero_pad (ztake 8 data) 8) + accumulate (zskip 8 data).
Proof.
  intros N. unfold accumulate. assert (0 < len data) as L by (destruct data; [congruence|]; rewrite len_cons; pose proof (len_nonneg data); lia).
  assert (Z.to_nat ((len data + 7) / 8) = S (Z.to_nat ((len (zskip 8 data) + 7) / 8))) as ->.
  { rewrite len_zskip by lia. assert (0 <= (len data - 1) / 8) by (apply Z.div_pos; lia).
    replace (len data + 7) with (len data - 1 + 1 * 8) by lia. rewrite Z.div_add by lia. destruct (Z.le_gt_cases 8 (len data)).
    - rewrite Z.max_r by lia. replace (len data - 8 + 7) with (len data - 1) by lia. lia.
    - rewrite Z.max_l by lia. replace ((0 + 7) / 8) with 0 by reflexivity. rewrite (Z.div_small (len data - 1)) by lia. reflexivity. }
  cbn [seq map fold_left]. rewrite fold_sum. change (8 * Z.of_nat 0) with 0. rewrite Z.add_0_l. f_equal.
  rewrite <- seq_shift, !map_map. set (n := Z.to_nat _). clearbody n. generalize (seq 0 n). intros l.
  assert (forall a, fold_left (fun result i => result + from_bytes (zero_pad (zslice data i 8) 8)) (map (fun x => 8 * Z.of_nat (S x)) l) a =
    fold_left (fun result i => result + from_bytes (zero_pad (zslice (zskip 8 data) i 8) 8)) (map (fun x => 8 * Z.of_nat x) l) a) as H; [|apply H].
  induction l as [|x l IH]; intros a; [reflexivity|]. cbn [map fold_left]. rewrite IH. do 4 f_equal.
  unfold zslice. rewrite zskip_zskip by lia. do 2 f_equal. lia.
Qed.

Lemma accumulate_words data : accumulate data = words_sum 0 data.
Proof.
  remember (length data) as n eqn:E. revert data E. induction n as [n IH] using lt_wf_ind. intros data ->.
  destruct data as [|c data0] eqn:Ed; [reflexivity|]. rewrite <- Ed in *. rewrite accumulate_cons by congruence.
  rewrite (IH (length (zskip 8 data))); [|unfold zskip; rewrite skipn_length, Ed; cbn [length]; lia|reflexivity].
  assert (data = ztake 8 data ++ zskip 8 data) as Es by (symmetry; apply firstn_skipn). rewrite Es at 3. rewrite words_app.
  unfold zero_pad. rewrite ztake_all by (rewrite len_ztake by lia; lia). rewrite from_bytes_zeros.
  rewrite (words_bytes (ztake 8 data) 0) by (try lia; rewrite len_ztake by lia; lia). change (256 ^ 0) with 1. rewrite Z.mul_1_l. f_equal.
  rewrite len_ztake by lia. destruct (Z.le_gt_cases 8 (len data)).
  - rewrite Z.min_l by lia. now rewrite words_shift.
  - rewrite (zskip_all 8 data) by lia. reflexivity.
Qed.

(** ** Reading *)
Lemma read_full cut f n : full cut -> 0 <= pos f <= len (content f) -> 0 <= n ->
  read cut f n = (zslice (content f) (pos f) n, mkFile (content f) (pos f + Z.min n (len (content f) - pos f)) (S (calls f))).
Proof.
  intros F H Hn. unfold read. set (a := Z.min n (len (content f) - pos f)). assert ((if a <=? 0 then 0 else cut (calls f) a) = a) as ->.
  { rewrite F. destruct (Z.leb_spec a 0); lia. }
  f_equal. unfold zslice, ztake. destruct (Z.le_gt_cases n (len (content f) - pos f)); [unfold a; now rewrite Z.min_l by lia|].
  unfold a. rewrite Z.min_r by lia. rewrite !firstn_all2; [reflexivity| |]; unfold zskip; rewrite skipn_length; unfold len in *; lia.
Qed.

Lemma smplayer_correct cut f : full cut ->
  exists v f', smplayer_hash cut f = (v, f') /\ hex_value v = Some (smplayer_spec (content f)) /\ length v = 16%nat.
Proof.
  intros F. unfold smplayer_hash. pose proof (len_nonneg (content f)) as L0.
  rewrite (read_full cut (seek f 0) 65536 F) by (cbn; lia). cbn [content seek pos calls]. set (size := len (content f)) in *.
  set (p := Z.min (Z.max 65536 (size - 65536)) size). assert (p = tail_start size) as Ep.
  { unfold p, tail_start. destruct (Z.leb_spec size 65536); [lia|]. destruct (Z.leb_spec size 131072); lia. }
  rewrite (read_full cut _ 65536 F) by (cbn [content pos seek]; unfold p; fold size; lia). cbn [content pos seek calls].
  do 2 eexists. split; [reflexivity|]. replace 18446744073709551615 with (Z.ones 64) by reflexivity. rewrite Z.land_ones by lia.
  assert (forall x, 0 <= x mod 2 ^ 64 < 16 ^ Z.of_nat 16) as B by (intros; change (16 ^ Z.of_nat 16) with (2 ^ 64); apply Z.mod_pos_bound; lia).
  destruct (hex_value_hex 16 _ (B (accumulate (zslice (content f) 0 65536) + size + accumulate (zslice (content f) p 65536)))) as [-> ->].
  split; [|reflexivity]. do 2 f_equal. unfold smplayer_spec. fold (len (content f)). fold size. f_equal. rewrite !accumulate_words, Ep.
  assert (zslice (content f) (tail_start size) 65536 = skipn (Z.to_nat (tail_start size)) (content f)) as ->.
  { unfold zslice. apply (ztake_all 65536 (zskip (tail_start size) (content f))). rewrite len_zskip; fold size; unfold tail_start; (destruct (Z.leb_spec size 65536); [|destruct (Z.leb_spec size 131072)]; lia). }
  unfold zslice. rewrite zskip_0. unfold ztake. lia.
Qed.

Lemma crc_streaming a b v : crc32 b (crc32 a v) = crc32 (a ++ b) v.
Proof. unfold crc32. rewrite fold_left_app. f_equal. f_equal. now rewrite Z.lxor_assoc, Z.lxor_nilpotent, Z.lxor_0_r. Qed.

(** Values of CRC-32 fit into 32 bits. *)
Lemma lxor_32 a b : 0 <= a < 2 ^ 32 -> 0 <= b < 2 ^ 32 -> 0 <= Z.lxor a b < 2 ^ 32.
Proof.
  intros A B. assert (Z.lxor a b = Z.lxor a b mod 2 ^ 32) as E.
  { rewrite <- Z.land_ones by lia. rewrite <- (Z.mod_small a (2 ^ 32)) at 1 by lia. rewrite <- (Z.mod_small b (2 ^ 32)) at 1 by lia. rewrite <- !Z.land_ones by lia.
    apply Z.bits_inj. intros n. rewrite Z.land_spec, !Z.lxor_spec, !Z.land_spec. destruct (Z.testbit a n), (Z.testbit b n), (Z.testbit (Z.ones 32) n); reflexivity. }
  rewrite E. apply Z.mod_pos_bound. lia.
Qed.
Lemma crc_bit_32 c : 0 <= c < 2 ^ 32 -> 0 <= crc_bit c < 2 ^ 32.
Proof.
  intros C. assert (0 <= Z.shiftr c 1 < 2 ^ 32) as H.
  { rewrite Z.shiftr_div_pow2 by lia. change (2 ^ 1) with 2. pose proof (Z.div_pos c 2). pose proof (Z.div_le_upper_bound c 2 c). lia. }
  unfold crc_bit. destruct (Z.odd c); [apply lxor_32; [exact H|lia]|exact H].
Qed.
Lemma crc32_range data v : 0 <= v < 2 ^ 32 -> 0 <= crc32 data v < 2 ^ 32.
Proof.
  intros V. unfold crc32. apply lxor_32; [|lia]. assert (0 <= Z.lxor v 4294967295 < 2 ^ 32) as H by (apply lxor_32; lia). revert H. generalize (Z.lxor v 4294967295).
  induction data as [|x data IH]; intros c C; [exact C|]. cbn [fold_left]. apply IH. unfold crc_byte. do 8 apply crc_bit_32. apply lxor_32; [exact C|]. unfold byte. pose proof (nat_ascii_bounded x). lia.
Qed.

Lemma dset_at_end {V} (d : list (str * V)) k v : ~ In k (dkeys d) -> dset str_eqb d k v = d ++ [(k, v)].
Proof.
  induction d as [|[k' w] d IH]; [reflexivity|]. cbn. intros N. destruct (str_eqb_spec k k') as [->|]; [exfalso; apply N; now left|]. rewrite IH; [reflexivity|tauto].
Qed.
Lemma dict_of_distinct {V} (l : list (str * V)) : NoDup (dkeys l) -> dict_of str_eqb l = l.
Proof.
  unfold dict_of, dupdate. induction l as [|[k v] l IH] using rev_ind; [reflexivity|]. rewrite fold_left_app. cbn [fold_left]. unfold dkeys. rewrite map_app. cbn. intros N.
  apply NoDup_remove in N as [N1 N2]. rewrite app_nil_r in N1, N2. rewrite IH by exact N1. now apply dset_at_end.
Qed.

Section Hashes.
  Variable S_ : Type.
  Variable new_ : str -> option S_.
  Variable update_ : S_ -> str -> S_.
  Variable hexdigest_ : S_ -> str.
  Variable registry : str -> option bool.
  Hypothesis Hstream : streaming update_.

  Lemma update_streaming h a b : update S_ update_ (update S_ update_ h a) b = update S_ update_ h (a ++ b).
  Proof. destruct h; cbn; [now rewrite crc_streaming|now rewrite (proj1 Hstream)]. Qed.

  Definition fed (data : str) (hs : list (str * hasher S_)) : list (str * hasher S_) := map (fun '(a, h) => (a, update S_ update_ h data)) hs.
  Lemma fed_fed a b hs : fed b (fed a hs) = fed (a ++ b) hs.
  Proof. unfold fed. rewrite map_map. apply map_ext. intros [n h]. now rewrite update_streaming. Qed.

  Lemma update_nothing h : update S_ update_ h [] = h.
  Proof. destruct h as [v|s]; cbn; [|now rewrite (proj2 Hstream)]. unfold crc32. cbn [fold_left]. now rewrite Z.lxor_assoc, Z.lxor_nilpotent, Z.lxor_0_r. Qed.
  Lemma fed_nothing hs : fed [] hs = hs.
  Proof. unfold fed. rewrite <- (map_id hs) at 2. apply map_ext. intros [a h]. now rewrite update_nothing. Qed.

  Section Reading.
  Variable cut : nat -> Z -> Z.
  Hypothesis Hcut : legal cut.

  Lemma loop_reads fuel : forall f hs, 0 <= pos f <= len (content f) -> len (content f) - pos f < Z.of_nat fuel ->
    exists hs' f', read_loop cut S_ update_ fuel f hs = Ok (hs', f') /\ content f' = content f /\
      hs' = fed (zskip (pos f) (content f)) hs.
  Proof.
    induction fuel as [|n IH]; intros f hs H L; [cbn in L; lia|]. cbn [read_loop]. unfold read. set (a := Z.min 1048576 (len (content f) - pos f)).
    destruct (Z.leb_spec a 0) as [A|A].
    - change (zslice (content f) (pos f) 0) with (@nil ascii). cbn. exists hs. eexists. split; [reflexivity|]. split; [reflexivity|]. rewrite zskip_all by lia. now rewrite fed_nothing.
    - assert (1 <= cut (calls f) a <= a) as C by (apply Hcut; lia). set (k := cut (calls f) a) in *.
      assert (len (zslice (content f) (pos f) k) = k) as Lk by (rewrite len_zslice by lia; lia).
      destruct (str_eqb_spec (zslice (content f) (pos f) k) []) as [E|_]; [rewrite E, len_nil in Lk; lia|].
      destruct (IH (mkFile (content f) (pos f + k) (S (calls f))) (fed (zslice (content f) (pos f) k) hs)) as (hs' & f' & E & Ec & D).
      { cbn. lia. } { cbn [content pos]. lia. }
      exists hs', f'. split; [exact E|]. split; [exact Ec|]. cbn [content pos] in D.
      assert (zskip (pos f) (content f) = zslice (content f) (pos f) k ++ zskip (pos f + k) (content f)) as Ez.
      { unfold zslice. rewrite <- (firstn_skipn (Z.to_nat k) (zskip (pos f) (content f))) at 1. unfold ztake. f_equal.
        change (skipn (Z.to_nat k) (zskip (pos f) (content f))) with (zskip k (zskip (pos f) (content f))). rewrite zskip_zskip by lia. f_equal. lia. }
      rewrite Ez, D. now rewrite fed_fed.
  Qed.

  Definition start (a : str) : option (hasher S_) :=
    if str_eqb a [] then None
    else match registry a with
         | Some false => if str_eqb a $"crc32" then Some (Crc S_ 0) else option_map (Lib S_) (new_ a)
         | _ => None
         end.

  Lemma selected algs : let st := fold_left (select S_ new_ registry) algs ([], []) in
    NoDup (dkeys (fst st)) /\ (forall a, dget str_eqb (fst st) a = if existsb (str_eqb a) algs then start a else None) /\
    (forall a, In a (snd st) <-> In a algs /\ a <> [] /\ registry a = Some true).
  Proof.
    induction algs as [|x algs IH] using rev_ind; cbn zeta.
    - split; [constructor|]. split; [reflexivity|]. intros a. cbn. tauto.
    - rewrite fold_left_app. cbn [fold_left]. destruct (fold_left (select S_ new_ registry) algs ([], [])) as [hs sp]. cbn [fst snd] in IH. destruct IH as (N & D & Sp).
      assert (forall a, existsb (str_eqb a) (algs ++ [x]) = existsb (str_eqb a) algs || str_eqb a x) as Ex by (intros; rewrite existsb_app; cbn; now rewrite orb_false_r).
      assert (start x = None -> forall a, dget str_eqb hs a = if existsb (str_eqb a) (algs ++ [x]) then start a else None) as Skip.
      { intros E a. rewrite D, Ex. destruct (str_eqb_spec a x) as [->|]; [|now rewrite orb_false_r]. rewrite orb_true_r, E. now destruct (existsb _ algs). }
      assert (forall h, start x = Some h -> forall a, dget str_eqb (dset str_eqb hs x h) a = if existsb (str_eqb a) (algs ++ [x]) then start a else None) as Add.
      { intros h E a. rewrite (dget_dset str_eqb str_eqb_spec), Ex, D. destruct (str_eqb_spec a x) as [->|]; [now rewrite orb_true_r, E|now rewrite orb_false_r]. }
      assert (x = [] \/ registry x <> Some true -> forall a, In a sp <-> In a (algs ++ [x]) /\ a <> [] /\ registry a = Some true) as SkipS.
      { intros E a. rewrite Sp, in_app_iff. cbn [In]. split; [tauto|]. intros ([I|[->|[]]] & N0 & R); [tauto|]. destruct E; contradiction. }
      assert (start x = if str_eqb x [] then None else match registry x with Some false => if str_eqb x $"crc32" then Some (Crc S_ 0) else option_map (Lib S_) (new_ x) | _ => None end) as Es by reflexivity.
      unfold select. destruct (str_eqb_spec x []) as [E0|Nx]; [cbn [fst snd]; split; [exact N|]; split; [now apply Skip|]; apply SkipS; now left|].
      destruct (registry x) as [[|]|] eqn:R; cbn [fst snd].
      + split; [exact N|]. split; [now apply Skip|]. intros a. rewrite !in_app_iff, Sp. cbn [In]. split.
        * intros [I|[<-|[]]]; [tauto|]. auto.
        * intros ([I|[<-|[]]] & N0 & R0); tauto.
      + destruct (str_eqb x $"crc32").
        * cbn [fst snd]. split; [now apply NoDup_dset; [exact str_eqb_spec|]|]. split; [now apply Add|]. apply SkipS. right. discriminate.
        * destruct (new_ x) as [s|]; cbn [fst snd].
          -- split; [now apply NoDup_dset; [exact str_eqb_spec|]|]. split; [now apply Add|]. apply SkipS. right. discriminate.
          -- split; [exact N|]. split; [now apply Skip|]. apply SkipS. right. discriminate.
      + split; [exact N|]. split; [now apply Skip|]. apply SkipS. right. discriminate.
  Qed.

  Lemma sparse_fold sp : forall result f, NoDup (dkeys result) ->
    let st := fold_left (add_sparse cut) sp (result, f) in
    NoDup (dkeys (fst st)) /\ content (snd st) = content f /\
    (forall a, a <> $"smplayer" \/ ~ In a sp -> dget str_eqb (fst st) a = dget str_eqb result a) /\
    (In $"smplayer" sp -> exists g, content g = content f /\ dget str_eqb (fst st) $"smplayer" = Some (fst (smplayer_hash cut g))).
  Proof.
    induction sp as [|x sp IH] using rev_ind; intros result f N; cbn zeta.
    - split; [exact N|]. split; [reflexivity|]. split; [reflexivity|intros []].
    - rewrite fold_left_app. cbn [fold_left]. specialize (IH result f N). cbn zeta in IH. destruct (fold_left (add_sparse cut) sp (result, f)) as [res g]. cbn [fst snd] in IH.
      destruct IH as (I1 & I2 & I3 & I4). unfold add_sparse. destruct (str_eqb_spec x $"smplayer") as [->|Nx].
      + destruct (smplayer_hash cut g) as [v g'] eqn:Eg. assert (content g' = content g) as Cg.
        { unfold smplayer_hash in Eg. cbn in Eg. injection Eg as _ <-. reflexivity. }
        cbn [fst snd]. split; [apply NoDup_dset; [exact str_eqb_spec|exact I1]|]. split; [congruence|]. split.
        * intros a C. rewrite (dget_dset str_eqb str_eqb_spec). destruct (str_eqb_spec a $"smplayer") as [->|Na]; [destruct C as [C|C]; [congruence|]; exfalso; apply C; apply in_or_app; right; now left|].
          apply I3. now left.
        * intros _. exists g. split; [exact I2|]. rewrite (dget_dset_same str_eqb str_eqb_spec). now rewrite Eg.
      + cbn [fst snd]. split; [exact I1|]. split; [exact I2|]. split.
        * intros a C. apply I3. destruct C as [C|C]; [now left|]. right. intros I. apply C. apply in_or_app. now left.
        * intros I. apply in_app_or in I as [I|[E|[]]]; [auto|]. congruence.
  Qed.

  Lemma fed_keys data hs : dkeys (map (fun '(a, h) => (a, hexdigest S_ hexdigest_ h)) (fed data hs)) = dkeys hs.
  Proof. unfold fed, dkeys. rewrite !map_map. apply map_ext. now intros [a h]. Qed.
  Lemma fed_get data hs a : dget str_eqb (map (fun '(a, h) => (a, hexdigest S_ hexdigest_ h)) (fed data hs)) a =
    match dget str_eqb hs a with Some h => Some (hexdigest S_ hexdigest_ (update S_ update_ h data)) | None => None end.
  Proof. unfold fed. induction hs as [|[k h] hs IH]; [reflexivity|]. cbn [map dget]. destruct (str_eqb a k); [reflexivity|exact IH]. Qed.

  (** The expected value of an algorithm that reads the whole file. *)
  Lemma computed_hashes f algs : 0 <= pos f -> exists result, compute_hashes cut S_ new_ update_ hexdigest_ registry f algs = Ok result /\ NoDup (dkeys result) /\
    (forall a, ~ (registry a = Some true /\ a = $"smplayer" /\ In a algs) ->
       dget str_eqb result a = if existsb (str_eqb a) algs then match start a with Some h => Some (hexdigest S_ hexdigest_ (update S_ update_ h (content f))) | None => None end else None) /\
    (In $"smplayer" algs -> registry $"smplayer" = Some true -> exists g, content g = content f /\ dget str_eqb result $"smplayer" = Some (fst (smplayer_hash cut g))).
  Proof.
    intros Hp. unfold compute_hashes. destruct algs as [|a0 algs'] eqn:Ea.
    { exists []. split; [reflexivity|]. split; [constructor|]. split; [reflexivity|intros []]. }
    rewrite <- Ea. clear Ea. pose proof (selected algs) as H. cbn zeta in H. destruct (fold_left (select S_ new_ registry) algs ([], [])) as [hs sp]. cbn [fst snd] in H. destruct H as (N & D & Sp).
    assert (exists f', match hs with [] => Ok ([], f) | _ :: _ => read_loop cut S_ update_ (S (length (content f))) (seek f 0) hs end = Ok (fed (content f) hs, f') /\ content f' = content f) as (f' & -> & Cf).
    { destruct hs as [|p hs]; [now exists f|]. destruct (loop_reads (S (length (content f))) (seek f 0) (p :: hs)) as (hs' & f' & E & Ec & Eh).
      - cbn. unfold len. lia.
      - cbn [content pos seek]. unfold len. lia.
      - exists f'. rewrite E. split; [|exact Ec]. rewrite Eh. reflexivity. }
    eexists. split; [reflexivity|]. set (result := dict_of str_eqb (map _ (fed (content f) hs))).
    assert (result = map (fun '(a, h) => (a, hexdigest S_ hexdigest_ h)) (fed (content f) hs)) as Er.
    { unfold result. apply dict_of_distinct. rewrite fed_keys. exact N. }
    assert (NoDup (dkeys result)) as Nr by (rewrite Er, fed_keys; exact N).
    pose proof (sparse_fold sp result f' Nr) as P. cbn zeta in P. destruct P as (P1 & P2 & P3 & P4). split; [exact P1|]. split.
    - intros a Na. rewrite P3.
      + rewrite Er, fed_get, D. now destruct (existsb (str_eqb a) algs).
      + destruct (str_eqb_spec a $"smplayer") as [->|]; [|now left]. right. intros I. apply Sp in I. apply Na. tauto.
    - intros I R. assert (In $"smplayer" sp) as Is by (apply Sp; repeat split; [exact I|discriminate|exact R]). destruct (P4 Is) as (g & Cg & E). exists g. split; [congruence|exact E].
  Qed.

  End Reading.
End Hashes.

(** ** Stored hashes *)
Lemma last_value_in {V} (h : list (Z * str * V)) oh k v : last_value h oh k = Some v -> In (oh, k, v) h.
Proof.
  induction h as [|[[o k'] w] h IH]; [discriminate|]. cbn [last_value]. destruct (last_value h oh k) as [u|]; [intros [= ->]; right; now apply IH|].
  destruct (Z.eqb_spec o oh) as [->|]; [|discriminate]. destruct (str_eqb_spec k' k) as [->|]; [|discriminate]. intros [= ->]. now left.
Qed.
Lemma last_value_some {V} (h : list (Z * str * V)) oh k v : In (oh, k, v) h -> last_value h oh k <> None.
Proof.
  induction h as [|[[o k'] w] h IH]; [intros []|]. cbn [last_value]. intros [[= -> -> ->]|I].
  - destruct (last_value h oh k); [discriminate|]. rewrite Z.eqb_refl, str_eqb_refl. discriminate.
  - specialize (IH I). destruct (last_value h oh k); [discriminate|contradiction].
Qed.

Lemma last_value_app {V} (h w : list (Z * str * V)) oh k : last_value (h ++ w) oh k = match last_value w oh k with Some v => Some v | None => last_value h oh k end.
Proof.
  induction h as [|[[o k'] v] h IH]; [cbn; destruct (last_value w oh k); reflexivity|]. cbn [app last_value]. rewrite IH. destruct (last_value w oh k); reflexivity.
Qed.

Section Stored.
  Variable hashes : list str.
  Variable computed : row -> option (list (str * str)).
  Variable shuffle : list row -> list row.
  Hypothesis Hs : any_order shuffle.
  Variable files : list row.

  Definition written_by (r : row) : list (Z * str * str) := match computed r with Some c => entries_of r c | None => [] end.

  Lemma steps_concat rows : forall batch calls, exists batch' calls', fold_left (hash_step computed) rows (batch, calls) = (batch', calls') /\
    concat calls' ++ batch' = concat calls ++ batch ++ flat_map written_by rows.
  Proof.
    induction rows as [|r rows IH]; intros batch calls; [exists batch, calls; split; [reflexivity|]; cbn; now rewrite app_nil_r|]. cbn [fold_left flat_map].
    assert (written_by r = match computed r with Some c => entries_of r c | None => [] end) as Ew by reflexivity. unfold hash_step at 2.
    destruct (computed r) as [c|]; [|rewrite Ew; apply IH]. rewrite Ew. destruct (1000 <=? len (batch ++ entries_of r c)).
    - destruct (IH [] (calls ++ [batch ++ entries_of r c])) as (b & cs & -> & E). exists b, cs. split; [reflexivity|]. rewrite E, concat_app. cbn [concat app]. rewrite app_nil_r. now rewrite <- !app_assoc.
    - destruct (IH (batch ++ entries_of r c) calls) as (b & cs & -> & E). exists b, cs. split; [reflexivity|]. rewrite E. now rewrite <- !app_assoc.
  Qed.

  Lemma calls_concat x : hashes <> [] -> concat (hash_calls hashes computed shuffle files x) = flat_map written_by (pending hashes shuffle files x).
  Proof.
    intros N. unfold hash_calls. destruct hashes as [|a l] eqn:E; [congruence|]. rewrite <- E. destruct (steps_concat (pending hashes shuffle files x) [] []) as (b & cs & -> & Ec).
    cbn [concat app] in Ec. rewrite <- Ec. destruct b; [now rewrite app_nil_r|]. rewrite concat_app. cbn [concat]. now rewrite app_nil_r.
  Qed.

  Lemma pending_in x r : In r (pending hashes shuffle files x) <-> In r files /\ eligible r /\ stored_count hashes x r < len hashes.
  Proof.
    unfold pending. split.
    - intros I. apply (Permutation_in _ (sort_perm _ _)), (Permutation_in _ (Hs _)), filter_In in I as [I C]. apply andb_true_iff in C as [C C3]. apply andb_true_iff in C as [C1 C2].
      split; [exact I|]. split; [split; [now apply Z.eqb_eq|now apply negb_true_iff]|]. apply Z.ltb_lt in C3. unfold len in *. now rewrite map_length in C3.
    - intros (I & [E1 E2] & C). apply (Permutation_in _ (Permutation_sym (sort_perm _ _))), (Permutation_in _ (Permutation_sym (Hs _))), filter_In. split; [exact I|].
      rewrite E1, E2. cbn. apply Z.ltb_lt. unfold len in *. now rewrite map_length.
  Qed.

  Lemma key_inj a b : xattr_key a = xattr_key b -> a = b.
  Proof. apply app_inv_head. Qed.

  (** If the count is complete then all the keys are there. *)
  Lemma count_complete h r a : len hashes <= stored_count hashes (setxattrs no_xattrs h) r -> In a hashes ->
    last_value h (r_offsetheader r) (xattr_key a) <> None.
  Proof.
    intros C I. unfold stored_count in C. set (l := map (fun '(_, k, _) => k) _) in C.
    assert (forall k, In k l -> In k (map xattr_key hashes) /\ exists v, In (r_offsetheader r, k, v) (view (setxattrs no_xattrs h))) as Hl.
    { intros k Ik. apply in_map_iff in Ik as ([[o k'] v] & <- & Ik). apply filter_In in Ik as [Ik F]. apply andb_true_iff in F as [F1 F2]. apply Z.eqb_eq in F1. subst o.
      apply existsb_exists in F2 as (y & Iy & Ey). apply str_eqb_eq in Ey. subst y. split; [exact Iy|]. now exists v. }
    assert (incl (map xattr_key hashes) (distinct l)) as Inc.
    { apply NoDup_length_incl; [apply NoDup_nodup|rewrite map_length; unfold len in C; lia|]. intros k Ik. apply nodup_In in Ik. now apply Hl. }
    specialize (Inc (xattr_key a) (in_map _ _ _ I)). apply nodup_In in Inc. destruct (Hl _ Inc) as [_ [v Iv]].
    apply (proj2 (history_ok h)) in Iv. rewrite Iv. discriminate.
  Qed.

  Definition run (h : list (Z * str * str)) : list (Z * str * str) := concat (hash_calls hashes computed shuffle files (setxattrs no_xattrs h)).

  Lemma store_history h : store_hashes hashes computed shuffle files (setxattrs no_xattrs h) = setxattrs no_xattrs (h ++ run h).
  Proof.
    unfold store_hashes, run. set (calls := hash_calls _ _ _ _ _). clearbody calls. unfold setxattrs at 3. rewrite fold_left_app. fold (setxattrs no_xattrs h).
    generalize (setxattrs no_xattrs h). intros x. revert x. induction calls as [|c calls IH]; intros x; [reflexivity|]. cbn [fold_left concat]. rewrite IH, fold_left_app. reflexivity.
  Qed.

End Stored.

Section Runs.
  Variable hashes : list str.
  Variable computed : row -> option (list (str * str)).
  Variable files : list row.

  Definition from_hashing (e : Z * str * str) : Prop := exists r c a v, In r files /\ eligible r /\ computed r = Some c /\ In (a, v) c /\ e = (r_offsetheader r, xattr_key a, v).
  (** What a run may write: the rows come in any order, and any files may fail. *)
  Definition possible (h w : list (Z * str * str)) : Prop := exists shuffle computed', any_order shuffle /\ (forall r c, computed' r = Some c -> computed r = Some c) /\
    w = concat (hash_calls hashes computed' shuffle files (setxattrs no_xattrs h)).
  Lemma run_from h w e : possible h w -> In e w -> from_hashing e.
  Proof.
    intros (shuffle & computed' & Hs & Hc & ->). destruct hashes as [|a0 l] eqn:Eh; [intros []|]. rewrite <- Eh. rewrite calls_concat by congruence. intros I. apply in_flat_map in I as (r & Ir & I).
    apply pending_in in Ir as (Ir & El & _); [|exact Hs]. unfold written_by in I. destruct (computed' r) as [c|] eqn:Ec; [apply Hc in Ec|destruct I]. unfold entries_of in I. apply in_map_iff in I as ([a v] & <- & I).
    exists r, c, a, v. auto.
  Qed.
  Lemma interrupted_from h0 h e : interrupted possible h0 h -> In e h -> In e h0 \/ from_hashing e.
  Proof.
    intros H. induction H as [h0|h0 h done rest H IH E]; [auto|]. intros I. apply in_app_or in I as [I|I]; [auto|]. right. apply (run_from h _ _ E). apply in_or_app. now left.
  Qed.

  Lemma stored_hash h0 shuffle h r c a : any_order shuffle ->
    (forall oh k v b, In (oh, k, v) h0 -> In b hashes -> k <> xattr_key b) -> (forall r c, In r files -> computed r = Some c -> NoDup (dkeys c) /\ incl (dkeys c) hashes) ->
    interrupted possible h0 h -> In r files -> eligible r -> own_number files r -> computed r = Some c -> In a hashes ->
    last_value (h ++ run hashes computed shuffle files h) (r_offsetheader r) (xattr_key a) = dget str_eqb c a.
  Proof.
    intros Hs H0 Hc Hi Ir El Own Ec Ia. destruct (Hc r c Ir Ec) as [N Inc]. assert (hashes <> []) as Ne by (intros E; rewrite E in Ia; destruct Ia).
    assert (forall e, In e (h ++ run hashes computed shuffle files h) -> In e h0 \/ from_hashing e) as From.
    { intros e I. apply in_app_or in I as [I|I]; [now apply (interrupted_from h0 h)|]. right. apply (run_from h (run hashes computed shuffle files h)); [|exact I]. exists shuffle, computed. auto. }
    destruct (last_value (h ++ run hashes computed shuffle files h) (r_offsetheader r) (xattr_key a)) as [v|] eqn:L.
    - apply last_value_in in L. destruct (From _ L) as [I|(r' & c' & a' & v' & Ir' & El' & Ec' & I & E)]; [exfalso; exact (H0 _ _ _ a I Ia eq_refl)|].
      assert (r_offsetheader r' = r_offsetheader r /\ a' = a /\ v' = v) as (E1 & -> & ->) by (injection E as E1 E2 E3; repeat split; congruence || now apply app_inv_head in E2).
      rewrite (Own r' Ir' El' E1) in Ec'. assert (c' = c) as -> by congruence. symmetry. now apply NoDup_dget; [exact str_eqb_spec| |].
    - destruct (dget str_eqb c a) as [v|] eqn:Ed; [exfalso|reflexivity]. apply dget_Some_In in Ed; [|exact str_eqb_spec].
      assert (exists w, In (r_offsetheader r, xattr_key a, w) (h ++ run hashes computed shuffle files h)) as [w I]; [|exact (last_value_some _ _ _ _ I L)].
      destruct (Z.lt_ge_cases (stored_count hashes (setxattrs no_xattrs h) r) (len hashes)) as [C|C].
      + exists v. apply in_or_app. right. unfold run. rewrite (calls_concat hashes computed shuffle files) by exact Ne. apply in_flat_map. exists r. split; [now apply pending_in|].
        unfold written_by. rewrite Ec. unfold entries_of. apply in_map_iff. now exists (a, v).
      + pose proof (count_complete hashes computed h r a C Ia) as K. destruct (last_value h (r_offsetheader r) (xattr_key a)) as [w|] eqn:Lh; [|contradiction]. exists w. apply in_or_app. left. now apply last_value_in.
  Qed.

  Lemma count_all h r : NoDup hashes -> (forall a, In a hashes -> last_value h (r_offsetheader r) (xattr_key a) <> None) -> len hashes <= stored_count hashes (setxattrs no_xattrs h) r.
  Proof.
    intros N H. unfold stored_count. set (l := map (fun '(_, k, _) => k) _).
    assert (incl (map xattr_key hashes) (distinct l)) as Inc.
    { intros k Ik. apply in_map_iff in Ik as (a & <- & Ia). specialize (H a Ia). destruct (last_value h (r_offsetheader r) (xattr_key a)) as [v|] eqn:L; [|contradiction].
      apply (proj2 (history_ok h)) in L. apply nodup_In. apply in_map_iff. exists (r_offsetheader r, xattr_key a, v). split; [reflexivity|]. apply filter_In. split; [exact L|].
      rewrite Z.eqb_refl. apply existsb_exists. exists (xattr_key a). split; [now apply in_map|apply str_eqb_refl]. }
    apply NoDup_incl_length in Inc; [|apply FinFun.Injective_map_NoDup; [intros x y; apply key_inj|exact N]]. rewrite map_length in Inc. unfold len. lia.
  Qed.
  Lemma nothing_pending shuffle h : any_order shuffle -> (forall r, In r files -> eligible r -> len hashes <= stored_count hashes (setxattrs no_xattrs h) r) ->
    hash_calls hashes computed shuffle files (setxattrs no_xattrs h) = [].
  Proof.
    intros Hs H. unfold hash_calls. destruct hashes as [|a0 l0] eqn:Eh; [reflexivity|]. rewrite <- Eh in *. destruct (pending hashes shuffle files (setxattrs no_xattrs h)) as [|r l] eqn:Ep; [reflexivity|]. exfalso.
    assert (In r (pending hashes shuffle files (setxattrs no_xattrs h))) as I by (rewrite Ep; now left). apply pending_in in I as (I & E & C); [|exact Hs]. specialize (H r I E). lia.
  Qed.
  Lemma run_complete shuffle h r : any_order shuffle -> In r files -> eligible r -> (exists c, computed r = Some c /\ incl hashes (dkeys c)) ->
    forall a, In a hashes -> last_value (h ++ run hashes computed shuffle files h) (r_offsetheader r) (xattr_key a) <> None.
  Proof.
    intros Hs Ir El (c & Ec & Inc) a Ia. assert (hashes <> []) as Ne by (intros E; rewrite E in Ia; destruct Ia). rewrite last_value_app.
    destruct (last_value (run hashes computed shuffle files h) (r_offsetheader r) (xattr_key a)) eqn:L; [discriminate|].
    destruct (Z.lt_ge_cases (stored_count hashes (setxattrs no_xattrs h) r) (len hashes)) as [C|C]; [|now apply (count_complete hashes computed)].
    exfalso. specialize (Inc a Ia). apply in_map_iff in Inc as ([a' v] & E & I). cbn in E. subst a'. apply (last_value_some (run hashes computed shuffle files h) (r_offsetheader r) (xattr_key a) v); [|exact L].
    unfold run. rewrite (calls_concat hashes computed shuffle files) by exact Ne. apply in_flat_map. exists r. split; [now apply pending_in|]. unfold written_by. rewrite Ec. apply in_map_iff. now exists (a, v).
  Qed.
End Runs.
