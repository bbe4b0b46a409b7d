(** Proofs about the format detection. *)
From Coq Require Import Ascii String.
From Verif Require Import PyBase PyDict PyStr Asar_Model Format_Model Format_Spec.
Local Open Scope Z_scope.

Lemma stands_slice data p s : stands_at data p s -> zslice data p (len s) = s /\ p + len s <= len data /\ 0 <= p.
Proof.
  intros (a & b & -> & E). change (Z.of_nat (length a)) with (len a) in E. subst p. pose proof (len_nonneg s). pose proof (len_nonneg b). pose proof (len_nonneg a). split; [|rewrite !len_app; lia].
  rewrite zslice_app_r by lia. rewrite Z.sub_diag. rewrite zslice_app_l by lia. apply zslice_full. lia.
Qed.
Lemma slice_stands data p n : 0 <= p -> 0 <= n -> p + n <= len data -> stands_at data p (zslice data p n) /\ len (zslice data p n) = n.
Proof.
  intros Hp Hn B. split; [|rewrite len_zslice by lia; lia]. exists (ztake p data), (zskip (p + n) data). split.
  - rewrite <- (ztake_zskip p data) at 1 by lia. f_equal. unfold zslice. rewrite (Z.add_comm p n), <- zskip_zskip by lia. symmetry. now apply ztake_zskip.
  - etransitivity; [exact (len_ztake p data Hp)|]. lia.
Qed.
Lemma slice_full (data : str) p n : 0 <= p -> 0 <= n -> (len (zslice data p n) = n <-> n = 0 \/ p + n <= len data).
Proof. intros Hp Hn. rewrite len_zslice by lia. lia. Qed.
(** Comparing a slice with a constant *)
Lemma slice_eqb data p n s : 0 <= p -> n = len s -> s <> [] -> (str_eqb (zslice data p n) s = true <-> stands_at data p s).
Proof.
  intros Hp -> N. rewrite str_eqb_eq. split.
  - intros E. assert (len s >= 1) as L by (destruct s; [congruence|]; rewrite len_cons; pose proof (len_nonneg s); lia).
    rewrite <- E. apply slice_stands; try lia. assert (len (zslice data p (len s)) = len s) as E2 by now rewrite E. rewrite len_zslice in E2 by lia. lia.
  - intros S. now apply stands_slice.
Qed.

Lemma little_value s : little s = value s.
Proof. induction s as [|c s IH]; [reflexivity|]. cbn [little value]. now rewrite IH. Qed.
Lemma value_range s : 0 <= value s < 256 ^ len s.
Proof.
  induction s as [|c s IH]; [now split|]. cbn [value]. rewrite len_cons, Z.pow_add_r by (pose proof (len_nonneg s); lia). change (256 ^ 1) with 256. pose proof (nat_ascii_bounded c). lia.
Qed.
Lemma has_number_slice data p n v : 0 <= p -> (0 < n)%nat -> (has_number data p n v <-> p + Z.of_nat n <= len data /\ little (zslice data p (Z.of_nat n)) = v).
Proof.
  intros Hp Hn. split.
  - intros (s & S & L & V). apply stands_slice in S as (E & B & _). assert (len s = Z.of_nat n) as L2 by (unfold len; lia). rewrite L2 in *. split; [lia|]. now rewrite E, little_value.
  - intros [B V]. destruct (slice_stands data p (Z.of_nat n)) as [S L]; try lia. exists (zslice data p (Z.of_nat n)). split; [exact S|]. split; [unfold len in L; lia|]. now rewrite <- little_value.
Qed.
Lemma has_number_fun data p n v w : has_number data p n v -> has_number data p n w -> v = w.
Proof.
  intros (s & (a & b & E & L) & Ls & <-) (t & (a' & b' & E' & L') & Lt & <-). rewrite E' in E. assert (length a' = length a) as La by lia.
  assert (forall (x y u w : str), length x = length y -> x ++ u = y ++ w -> x = y /\ u = w) as Inj.
  { clear. induction x as [|c x IH]; intros [|d y] u w L E; try discriminate; [auto|]. cbn in L. injection E as -> E. destruct (IH y u w) as [-> ->]; auto. }
  apply Inj in E as [_ E]; [|exact La]. apply Inj in E as [-> _]; [reflexivity|lia].
Qed.

(** ** might_be_format *)
Lemma position data pos info : snd (might_be_format data pos info) = pos.
Proof.
  unfold might_be_format. destruct (match magicBytes info with Some (c :: r) => _ | _ => _ end) as [m q]. destruct (negb m); [reflexivity|]. destruct (checkHeader info) as [c|]; [|reflexivity]. now destruct (c data pos).
Qed.
Lemma verdict data pos info : 0 <= pos -> forall r, fst (might_be_format data pos info) = r <->
  (exists m, magicBytes info = Some m /\ m <> [] /\ ~ stands_at data pos m /\ r = Ok false) \/
  ((forall m, magicBytes info = Some m -> m <> [] -> stands_at data pos m) /\
   match checkHeader info with
   | Some check => r = fst (check data pos)
   | None => r = Ok true /\ (exists m, magicBytes info = Some m /\ m <> []) \/ r = Ok false /\ (forall m, magicBytes info = Some m -> m = [])
   end).
Proof.
  intros Hp r. unfold might_be_format. destruct (magicBytes info) as [[|c m]|] eqn:Em.
  - cbn [negb]. split.
    + intros <-. right. split; [intros m [= <-]; congruence|]. destruct (checkHeader info) as [check|]; [now destruct (check data pos)|]. right. split; [reflexivity|]. now intros m [= <-].
    + intros [(m & [= <-] & N & _)|(_ & H)]; [congruence|]. destruct (checkHeader info) as [check|]; [destruct (check data pos); now rewrite H|]. destruct H as [[_ (m & [= <-] & N)]|[-> _]]; [congruence|reflexivity].
  - set (M := c :: m) in *. unfold read. assert (M <> []) as NM by discriminate. pose proof (slice_eqb data pos (len M) M Hp eq_refl NM) as S.
    destruct (str_eqb (zslice data pos (len M)) M); cbn [negb].
    + assert (stands_at data pos M) as St by now apply S. split.
      * intros <-. right. split; [now intros m0 [= <-]|]. destruct (checkHeader info) as [check|]; [now destruct (check data pos)|]. left. split; [reflexivity|]. now exists M.
      * intros [(m0 & [= <-] & _ & N & _)|(_ & H)]; [contradiction|]. destruct (checkHeader info) as [check|]; [destruct (check data pos); now rewrite H|].
        destruct H as [[-> _]|[_ H]]; [reflexivity|]. specialize (H M eq_refl). discriminate.
    + assert (~ stands_at data pos M) as St by (intros X; apply S in X; discriminate). split.
      * intros <-. left. now exists M.
      * intros [(m0 & _ & _ & _ & ->)|(H & _)]; [reflexivity|]. exfalso. now apply St, H.
  - cbn [negb]. split.
    + intros <-. right. split; [discriminate|]. destruct (checkHeader info) as [check|]; [now destruct (check data pos)|]. right. split; [reflexivity|discriminate].
    + intros [(m & [=] & _)|(_ & H)]. destruct (checkHeader info) as [check|]; [destruct (check data pos); now rewrite H|]. destruct H as [[_ (m & [=] & N)]|[-> _]]. reflexivity.
Qed.

(** ** SquashFS *)
Lemma squashfs_position data p : snd (is_squashfs data p) = p.
Proof. unfold is_squashfs. now destruct (read data p 4). Qed.
Lemma squashfs_check data p : 0 <= p -> exists b, fst (is_squashfs data p) = Ok b /\ (b = true <-> superblock data p).
Proof.
  intros Hp. unfold is_squashfs, read. pose proof (slice_eqb data p 4 $"hsqs" Hp eq_refl ltac:(discriminate)) as Sm.
  destruct (str_eqb (zslice data p 4) $"hsqs"); cbn [negb fst].
  2: { eexists. split; [reflexivity|]. split; [discriminate|]. intros (H & _). now apply Sm in H. }
  assert (stands_at data p $"hsqs") as St by now apply Sm. destruct (stands_slice _ _ _ St) as (E4 & B4 & _). change (len $"hsqs") with 4 in *. rewrite E4. change (len $"hsqs") with 4.
  assert (forall q n v, (0 < n)%nat -> 0 <= q -> has_number data q n v -> q + Z.of_nat n <= len data /\ little (zslice data q (Z.of_nat n)) = v) as Num by (intros; now apply has_number_slice).
  destruct (Z.eqb_spec (len (zslice data (p + 4) 16)) 16) as [L16|L16]; cbn [negb].
  2: { eexists. split; [reflexivity|]. split; [discriminate|]. intros (_ & _ & _ & _ & H). apply Num in H as [H _]; [|lia|lia]. rewrite slice_full in L16 by lia. cbn in H. lia. }
  rewrite L16. replace (p + 4 + 16) with (p + 20) by lia. destruct (Z.eqb_spec (len (zslice data (p + 20) 12)) 12) as [L12|L12]; cbn [negb].
  2: { eexists. split; [reflexivity|]. split; [discriminate|]. intros (_ & _ & _ & _ & H). apply Num in H as [H _]; [|lia|lia]. rewrite slice_full in L12 by lia. cbn in H. lia. }
  assert (p + 32 <= len data) as B by (apply slice_full in L12; lia).
  rewrite !zslice_zslice by lia. replace (p + 4 + 8) with (p + 12) by lia. replace (p + 20 + 0) with (p + 20) by lia. replace (p + 20 + 2) with (p + 22) by lia.
  replace (p + 20 + 8) with (p + 28) by lia. replace (p + 20 + 10) with (p + 30) by lia.
  assert (forall q n, (0 < n)%nat -> 0 <= q -> q + Z.of_nat n <= len data -> has_number data q n (little (zslice data q (Z.of_nat n)))) as Has by (intros; apply has_number_slice; auto).
  set (bs := little (zslice data (p + 12) 4)). set (co := little (zslice data (p + 20) 2)). set (lg := little (zslice data (p + 22) 2)). set (ma := little (zslice data (p + 28) 2)). set (mi := little (zslice data (p + 30) 2)).
  assert (has_number data (p + 12) 4 bs) as H1 by (apply (Has (p + 12) 4%nat); lia). assert (has_number data (p + 20) 2 co) as H2 by (apply (Has (p + 20) 2%nat); lia).
  assert (has_number data (p + 22) 2 lg) as H3 by (apply (Has (p + 22) 2%nat); lia). assert (has_number data (p + 28) 2 ma) as H4 by (apply (Has (p + 28) 2%nat); lia). assert (has_number data (p + 30) 2 mi) as H5 by (apply (Has (p + 30) 2%nat); lia).
  clearbody bs co lg ma mi. eexists. split; [reflexivity|].
  destruct ((lg <? 12) || (20 <? lg) || negb (2 ^ lg =? bs)) eqn:C1.
  { split; [discriminate|]. intros (_ & (log & R & N1 & N2) & _). rewrite (has_number_fun _ _ _ _ _ H3 N2) in C1. rewrite (has_number_fun _ _ _ _ _ H1 N1) in C1.
    destruct (Z.ltb_spec log 12), (Z.ltb_spec 20 log), (Z.eqb_spec (2 ^ log) (2 ^ log)); cbn in C1; lia || congruence. }
  destruct (negb (ma =? 4) || negb (mi =? 0)) eqn:C2.
  { split; [discriminate|]. intros (_ & _ & _ & N1 & N2). rewrite (has_number_fun _ _ _ _ _ H4 N1), (has_number_fun _ _ _ _ _ H5 N2) in C2. discriminate. }
  destruct (Z.ltb_spec 6 co) as [C3|C3].
  { split; [discriminate|]. intros (_ & _ & (c & R & N) & _). pose proof (has_number_fun _ _ _ _ _ H2 N). lia. }
  split; [intros _|reflexivity]. apply orb_false_iff in C1 as [C1 C1c]. apply orb_false_iff in C1 as [C1a C1b]. apply negb_false_iff, Z.eqb_eq in C1c. apply orb_false_iff in C2 as [C2a C2b]. apply negb_false_iff, Z.eqb_eq in C2a, C2b.
  split; [exact St|]. split; [exists lg; split; [lia|]; split; [now rewrite C1c|exact H3]|]. split; [exists co; auto|]. subst. auto.
Qed.

Lemma find_at_spec p s : forall i, 0 <= i -> p <> [] ->
  (find_at p s i = -1 /\ forall k, ~ stands_at s k p) \/
  (exists k, find_at p s i = i + k /\ stands_at s k p /\ forall j, j < k -> ~ stands_at s j p).
Proof.
  induction s as [|c s IH]; intros i Hi Np; cbn [find_at].
  - destruct (starts_with p []) eqn:E; [apply starts_with_spec in E as [t E]; destruct p; [congruence|discriminate]|]. left. split; [reflexivity|]. intros k (a & b & E2 & _). destruct a; [|discriminate]. destruct p; [congruence|discriminate].
  - destruct (starts_with p (c :: s)) eqn:E.
    + right. exists 0. apply starts_with_spec in E as [t E]. split; [lia|]. split; [exists [], t; auto|]. intros j Hj (a & b & _ & L). lia.
    + assert (~ stands_at (c :: s) 0 p) as N0. { intros (a & b & E2 & L). destruct a; [|cbn in L; lia]. cbn in E2. rewrite E2, starts_with_app in E. discriminate. }
      assert (forall k, stands_at (c :: s) (1 + k) p <-> stands_at s k p \/ (k = -1 /\ stands_at (c :: s) 0 p)) as Step.
      { intros k. split.
        - intros (a & b & E2 & L). destruct a as [|x a]; [cbn [length] in L; right; split; [lia|]; exists [], b; auto|]. left. injection E2 as _ E2. exists a, b. split; [exact E2|]. cbn [length] in L. lia.
        - intros [(a & b & -> & L)|[-> H]]; [|exact H]. exists (c :: a), b. split; [reflexivity|]. cbn [length]. lia. }
      destruct (IH (i + 1) ltac:(lia) Np) as [[F H]|(k & F & S & H)].
      * left. split; [exact F|]. intros k Sk. replace k with (1 + (k - 1)) in Sk by lia. apply Step in Sk as [Sk|[_ Sk]]; [exact (H _ Sk)|exact (N0 Sk)].
      * right. exists (1 + k). split; [lia|]. split; [apply Step; now left|]. intros j Hj Sj. replace j with (1 + (j - 1)) in Sj by lia. apply Step in Sj as [Sj|[_ Sj]]; [apply (H (j - 1)); [lia|exact Sj]|exact (N0 Sj)].
Qed.
Lemma stands_skip data o k p : 0 <= o <= len data -> 0 <= k -> (stands_at (zskip o data) k p <-> stands_at data (o + k) p).
Proof.
  intros Ho Hk. split.
  - intros (a & b & E & L). exists (ztake o data ++ a), b. split; [rewrite <- app_assoc, <- E; symmetry; apply ztake_zskip; lia|]. rewrite app_length. pose proof (len_ztake o data ltac:(lia)) as Lt. unfold len in Lt at 1. lia.
  - intros (a & b & -> & L). change (Z.of_nat (length a)) with (len a) in L. rewrite zskip_app_le by lia. exists (zskip o a), b. split; [reflexivity|]. pose proof (len_zskip o a ltac:(lia)) as Lt. unfold len in Lt at 1. lia.
Qed.
Lemma find_spec data p start : 0 <= start -> p <> [] ->
  (find data p start = -1 /\ forall k, start <= k -> ~ stands_at data k p) \/
  (exists k, find data p start = k /\ start <= k /\ stands_at data k p /\ forall j, start <= j < k -> ~ stands_at data j p).
Proof.
  intros Hs Np. unfold find. destruct (Z.ltb_spec (len data) start) as [H|H].
  - left. split; [reflexivity|]. intros k Hk (a & b & -> & L). rewrite !len_app in H. pose proof (len_nonneg p). pose proof (len_nonneg b). unfold len in *. lia.
  - destruct (find_at_spec p (zskip start data) start Hs Np) as [[F N]|(k & F & S & N)].
    + left. split; [exact F|]. intros k Hk Sk. apply (N (k - start)). apply stands_skip; try lia. now replace (start + (k - start)) with k by lia.
    + assert (0 <= k) as Hk by (destruct S as (a & b & _ & L); lia). right. exists (start + k). split; [exact F|]. split; [lia|]. split; [now apply stands_skip|].
      intros j Hj Sj. apply (N (j - start)); [lia|]. apply stands_skip; try lia. now replace (start + (j - start)) with j by lia.
Qed.

Lemma prefix_stands data n k p : 0 <= n -> p <> [] -> (stands_at (zslice data 0 n) k p <-> stands_at data k p /\ k + len p <= n).
Proof.
  intros Hn Np. unfold zslice. rewrite zskip_0. split.
  - intros S. destruct (stands_slice _ _ _ S) as (_ & B & K). rewrite len_ztake in B by lia. destruct S as (a & b & E & L). split; [|lia]. exists a, (b ++ zskip n data). split; [|exact L].
    rewrite <- (ztake_zskip n data) at 1 by lia. rewrite E. now rewrite <- !app_assoc.
  - intros [(a & b & -> & L) B]. change (Z.of_nat (length a)) with (len a) in L. exists a, (ztake (n - len a - len p) b). split; [|exact L]. subst k. unfold ztake, len in *.
    rewrite !firstn_app. rewrite (firstn_all2 a) by lia. rewrite (firstn_all2 p) by lia. repeat f_equal. lia.
Qed.

Lemma squashfs_loop_spec fuel file n : forall m, 0 <= n -> 0 <= m <= len (zslice file 0 n) -> len (zslice file 0 n) - m < Z.of_nat fuel ->
  exists r, squashfs_loop fuel file (zslice file 0 n) m = Ok r /\
  (r = -1 /\ (forall o, m < o -> o + 4 <= n -> ~ superblock file o) \/
   m < r /\ r + 4 <= n /\ superblock file r /\ forall o, m < o < r -> ~ superblock file o).
Proof.
  induction fuel as [|f IH]; intros m Hn Hm F; [lia|]. cbn [squashfs_loop].
  assert ($"hsqs" <> []) as Nh by discriminate. assert (len $"hsqs" = 4) as L4 by reflexivity.
  assert (forall o, superblock file o -> o + 4 <= n -> stands_at (zslice file 0 n) o $"hsqs") as Sup by (intros o (S & _) B; apply prefix_stands; [lia|exact Nh|]; split; [exact S|lia]).
  destruct (find_spec (zslice file 0 n) $"hsqs" (m + 1) ltac:(lia) Nh) as [[E N]|(k & E & Hk & S & N)]; rewrite E.
  - exists (-1). split; [reflexivity|]. left. split; [reflexivity|]. intros o Ho B Sb. apply (N o); [lia|]. now apply Sup.
  - pose proof (stands_slice _ _ _ S) as (_ & B & _). rewrite L4 in B. destruct (Z.ltb_spec k 0) as [|_]; [lia|]. destruct (Z.leb_spec (len (zslice file 0 n)) k) as [|_]; [lia|]. cbn [orb].
    apply prefix_stands in S as [S Bn]; [|lia|exact Nh]. rewrite L4 in Bn.
    assert (forall o, m < o < k -> ~ superblock file o) as Nb by (intros o Ho Sb; apply (N o); [lia|]; apply Sup; [exact Sb|lia]).
    destruct (squashfs_check file k ltac:(lia)) as (b & Eb & Hb). rewrite Eb. destruct b.
    + exists k. split; [reflexivity|]. right. split; [lia|]. split; [lia|]. split; [now apply Hb|exact Nb].
    + destruct (IH k ltac:(lia) ltac:(lia) ltac:(lia)) as (r & Er & Hr). exists r. split; [exact Er|].
      assert (~ superblock file k) as Nk by (intros X; apply Hb in X; discriminate).
      assert (forall o, m < o -> o <= k -> ~ superblock file o) as Nk2. { intros o H1 H2. destruct (Z.eq_dec o k) as [->|]; [exact Nk|]. apply Nb. lia. }
      destruct Hr as [[-> H]|(H1 & H2 & H3 & H4)]; [left|right].
      * split; [reflexivity|]. intros o Ho Bo. destruct (Z.le_gt_cases o k); [now apply Nk2|]. apply H; lia.
      * split; [lia|]. split; [lia|]. split; [exact H3|]. intros o Ho. destruct (Z.le_gt_cases o k); [apply Nk2; lia|]. apply H4; lia.
Qed.

Lemma squashfs_offset file n : 0 <= n -> exists r, find_squashfs_offset file 0 n = (Ok r, 0) /\
  (r = -1 /\ (forall o, 0 <= o <= n -> ~ superblock file o) \/ 0 <= r <= n /\ superblock file r /\ forall o, 0 <= o < r -> ~ superblock file o).
Proof.
  intros Hn. unfold find_squashfs_offset. destruct (squashfs_check file 0 ltac:(lia)) as (b & Eb & Hb). rewrite Eb. destruct b.
  - exists 0. split; [reflexivity|]. right. split; [lia|]. split; [now apply Hb|]. intros o Ho. lia.
  - unfold read. assert (~ superblock file 0) as N0 by (intros X; apply Hb in X; discriminate).
    destruct (squashfs_loop_spec (S (length (zslice file 0 (n + 4)))) file (n + 4) 0) as (r & Er & Hr); [lia|pose proof (len_nonneg (zslice file 0 (n + 4))); lia|unfold len; lia|].
    rewrite Er. exists r. split; [reflexivity|].
    assert (forall o, 0 <= o -> (0 < o -> ~ superblock file o) -> ~ superblock file o) as Z0 by (intros o Ho H; destruct (Z.eq_dec o 0) as [->|]; [exact N0|apply H; lia]).
    destruct Hr as [[-> H]|(H1 & H2 & H3 & H4)]; [left|right].
    + split; [reflexivity|]. intros o Ho. apply Z0; [lia|]. intros. apply H; lia.
    + split; [lia|]. split; [exact H3|]. intros o Ho. apply Z0; [lia|]. intros. apply H4; lia.
Qed.

(** ** Skippable frames *)
Lemma read_u32_spec data p : 0 <= p ->
  (exists v, read_u32 data p = (Ok v, p + 4) /\ has_number data p 4 v) \/ (exists q, read_u32 data p = (Err StructError, q) /\ forall v, ~ has_number data p 4 v).
Proof.
  intros Hp. unfold read_u32, read. destruct (Z.eqb_spec (len (zslice data p 4)) 4) as [L|L].
  - left. eexists. rewrite L. split; [reflexivity|]. apply (has_number_slice data p 4 _ Hp ltac:(lia)). apply slice_full in L; [|lia|lia]. split; [cbn; lia|reflexivity].
  - right. eexists. split; [reflexivity|]. intros v H. apply has_number_slice in H as [H _]; [|lia|lia]. apply L. apply slice_full; [lia|lia|]. cbn in H. lia.
Qed.
Lemma number_range data p v : has_number data p 4 v -> 0 <= v < 4294967296.
Proof. intros (s & _ & L & <-). pose proof (value_range s) as R. replace (len s) with 4 in R by (unfold len; lia). exact R. Qed.
Lemma kind_range m : 0 <= m < 4294967296 -> (Z.land m 4294967280 =? 407710288) = true <-> 407710288 <= m <= 407710303.
Proof.
  intros H. assert (Z.land m 4294967280 = 16 * (m / 16)) as E.
  { replace (16 * (m / 16)) with (Z.shiftl (Z.shiftr m 4) 4) by (rewrite Z.shiftl_mul_pow2, Z.shiftr_div_pow2 by lia; change (2 ^ 4) with 16; lia).
    change 4294967280 with (Z.shiftl (Z.ones 28) 4). apply Z.bits_inj'. intros i Hi. rewrite Z.land_spec, !Z.shiftl_spec by lia. destruct (Z.lt_ge_cases i 4) as [C|C].
    - rewrite (Z.testbit_neg_r (Z.ones 28)) by lia. rewrite (Z.testbit_neg_r (Z.shiftr m 4)) by lia. apply andb_false_r.
    - rewrite Z.shiftr_spec by lia. replace (i - 4 + 4) with i by lia. destruct (Z.lt_ge_cases i 32) as [D|D].
      + rewrite Z.ones_spec_low by lia. apply andb_true_r.
      + assert (Z.testbit m i = false) as ->; [|reflexivity]. destruct (Z.eq_dec m 0) as [->|]; [apply Z.testbit_0_l|]. apply Z.bits_above_log2; [lia|]. apply Z.log2_lt_pow2; [lia|].
        apply Z.lt_le_trans with (2 ^ 32); [exact (proj2 H)|]. apply Z.pow_le_mono_r; lia. }
  rewrite E, Z.eqb_eq. pose proof (Z.div_mod m 16). pose proof (Z.mod_pos_bound m 16). lia.
Qed.

Definition plain (v : Z) : Prop := ~ (407710288 <= v <= 407710303).
Lemma frames_next data p q kind size v : 407710288 <= kind <= 407710303 -> has_number data p 4 kind -> has_number data (p + 4) 4 size -> plain v ->
  skippable data p q -> has_number data q 4 v -> skippable data (p + 8 + size) q.
Proof.
  intros K Hk Hs P S Hv. inversion S as [|? ? kind' size' K' Hk' Hs' S']; subst.
  - exfalso. apply P. now rewrite (has_number_fun _ _ _ _ _ Hv Hk).
  - now rewrite (has_number_fun _ _ _ _ _ Hs Hs').
Qed.
Lemma frames_cut data p q kind v : 407710288 <= kind <= 407710303 -> has_number data p 4 kind -> (forall size, ~ has_number data (p + 4) 4 size) -> plain v ->
  skippable data p q -> has_number data q 4 v -> False.
Proof.
  intros K Hk Hs P S Hv. inversion S as [|? ? kind' size' K' Hk' Hs' S']; subst.
  - apply P. now rewrite (has_number_fun _ _ _ _ _ Hv Hk).
  - exact (Hs _ Hs').
Qed.

Lemma skip_frames_spec fuel data : forall p magic, 0 <= p -> len data - p < Z.of_nat fuel -> has_number data p 4 magic ->
  (exists q v, skip_frames fuel data (p + 4) magic = (Ok v, q + 4) /\ skippable data p q /\ has_number data q 4 v /\ plain v) \/
  (exists q, skip_frames fuel data (p + 4) magic = (Err StructError, q) /\ forall q v, skippable data p q -> has_number data q 4 v -> plain v -> False).
Proof.
  induction fuel as [|f IH]; intros p magic Hp F Hm; [apply has_number_slice in Hm as [Hm _]; lia|]. cbn [skip_frames]. pose proof (kind_range magic (number_range _ _ _ Hm)) as K.
  destruct (Z.land magic 4294967280 =? 407710288).
  - assert (407710288 <= magic <= 407710303) as Km by now apply K.
    destruct (read_u32_spec data (p + 4) ltac:(lia)) as [(size & -> & Hs)|(q & -> & Hs)].
    2: { right. exists q. split; [reflexivity|]. intros q' v S Hv P. exact (frames_cut data p q' magic v Km Hm Hs P S Hv). }
    pose proof (number_range _ _ _ Hs) as Rs. replace (p + 4 + 4 + size) with (p + 8 + size) by lia.
    destruct (read_u32_spec data (p + 8 + size) ltac:(lia)) as [(m & -> & Hn)|(q & -> & Hn)].
    + destruct (IH (p + 8 + size) m ltac:(lia) ltac:(lia) Hn) as [(q & v & E & S & Hv & P)|(q & E & N)]; [left|right].
      * exists q, v. split; [exact E|]. split; [|auto]. apply (one_frame data p q magic size); assumption.
      * exists q. split; [exact E|]. intros q' v S Hv P. apply (N q' v); [|exact Hv|exact P]. now apply (frames_next data p q' magic size v).
    + right. exists q. split; [reflexivity|]. intros q' v S Hv P. pose proof (frames_next data p q' magic size v Km Hm Hs P S Hv) as S'.
      inversion S' as [|? ? kind' size' K' Hk' Hs' S'']; subst; [exact (Hn _ Hv)|exact (Hn _ Hk')].
  - left. exists p, magic. split; [reflexivity|]. split; [constructor|]. split; [exact Hm|]. intros X. apply K in X. discriminate.
Qed.
Lemma check_frames_spec last data p : plain last -> 0 <= p -> exists b, fst (check_frames last data p) = Ok b /\
  (b = true <-> exists q, skippable data p q /\ has_number data q 4 last).
Proof.
  intros P Hp. unfold check_frames. destruct (read_u32_spec data p Hp) as [(m & -> & Hm)|(q & -> & Hm)].
  - destruct (skip_frames_spec (S (length data)) data p m Hp ltac:(unfold len; lia) Hm) as [(q & v & -> & S & Hv & Pv)|(q & -> & N)].
    + cbn [fst]. eexists. split; [reflexivity|]. rewrite Z.eqb_eq. split; [intros ->; now exists q|]. intros (q' & S' & H').
      assert (forall a b c, skippable data a b -> has_number data b 4 v -> skippable data a c -> has_number data c 4 last -> b = c) as U.
      { clear - P Pv. intros a b c Sb. revert c. induction Sb as [a|a b kind size K Hk Hs Sb IH]; intros c Hb Sc Hc.
        - inversion Sc as [|? ? kind' size' K' Hk' Hs' S']; subst; [reflexivity|]. exfalso. apply Pv. now rewrite (has_number_fun _ _ _ _ _ Hb Hk').
        - apply (IH c Hb); [|exact Hc]. now apply (frames_next data a c kind size last). }
      rewrite <- (U p q q' S Hv S' H') in H'. exact (has_number_fun _ _ _ _ _ Hv H').
    + cbn [fst]. eexists. split; [reflexivity|]. split; [discriminate|]. intros (q' & S' & H'). exfalso. exact (N q' last S' H' P).
  - cbn [fst]. eexists. split; [reflexivity|]. split; [discriminate|]. intros (q' & S' & H'). exfalso. inversion S' as [|? ? kind' size' K' Hk' Hs' S'']; subst; [exact (Hm _ H')|exact (Hm _ Hk')].
Qed.

(** ** Signatures *)
Lemma orb_iff a b (P Q : Prop) : (a = true <-> P) -> (b = true <-> Q) -> (a || b = true <-> P \/ Q).
Proof. intros <- <-. apply orb_true_iff. Qed.
Lemma andb_iff a b (P Q : Prop) : (a = true <-> P) -> (b = true <-> Q) -> (a && b = true <-> P /\ Q).
Proof. intros <- <-. apply andb_true_iff. Qed.

Lemma avi_check data p : 0 <= p -> exists b, is_avi data p = (Ok b, p) /\ (b = true <-> stands_at data p $"RIFF" /\ stands_at data (p + 8) $"AVI ").
Proof.
  intros Hp. unfold is_avi, read. eexists. split; [reflexivity|]. rewrite !zslice_zslice by lia. rewrite Z.add_0_r.
  pose proof (slice_eqb data p 4 $"RIFF" Hp eq_refl ltac:(discriminate)) as S1. pose proof (slice_eqb data (p + 8) 4 $"AVI " ltac:(lia) eq_refl ltac:(discriminate)) as S2.
  destruct (Z.ltb_spec (len (zslice data p 12)) 12) as [L|L].
  - split; [discriminate|]. intros [_ H]. apply stands_slice in H as (_ & H & _). change (len $"AVI ") with 4 in H. rewrite len_zslice in L by lia. lia.
  - destruct (str_eqb (zslice data p 4) $"RIFF"); cbn [negb]; [rewrite S2|]; intuition discriminate.
Qed.
Lemma cpio_check data p : 0 <= p -> exists b, fst (is_cpio data p) = Ok b /\
  (b = true <-> stands_at data p $"07070" \/ stands_at data p [chr 113; chr 199] \/ stands_at data p [chr 199; chr 113]).
Proof.
  intros Hp. unfold is_cpio, read. eexists. split; [reflexivity|]. rewrite zslice_zslice by lia. rewrite Z.add_0_r. rewrite <- orb_assoc. 
  apply orb_iff; [|apply orb_iff]; apply slice_eqb; try reflexivity; try lia; discriminate.
Qed.
Lemma iso_check data p : 0 <= p -> exists b, fst (is_iso9660 data p) = Ok b /\ (b = true <-> stands_at data (p + 32769) $"CD001" \/ stands_at data (p + 38913) $"NSR0").
Proof.
  intros Hp. unfold is_iso9660, read. eexists. split; [reflexivity|]. change (32 * 1024 + 1) with 32769. change (38 * 1024 + 1) with 38913. change (Z.max 32769 38913 + 4) with 38917.
  rewrite !zslice_zslice by lia. apply orb_iff; apply slice_eqb; try reflexivity; try lia; discriminate.
Qed.
Lemma sqlar_check data p : 0 <= p -> exists b, fst (check_encrypted_sqlar data p) = Ok b /\ (b = true <-> p + 16 <= len data).
Proof. intros Hp. unfold check_encrypted_sqlar, read. eexists. split; [reflexivity|]. rewrite Z.leb_le, len_zslice by lia. lia. Qed.
Lemma bzip2_check data p : 0 <= p -> exists b, fst (is_bzip2 data p) = Ok b /\
  (b = true <-> stands_at data p $"BZh" /\ stands_at data (p + 4) (map ascii_of_nat [49; 65; 89; 38; 83; 89]%nat)).
Proof.
  intros Hp. unfold is_bzip2, read. rewrite zslice_zslice by lia. rewrite Z.add_0_r. pose proof (slice_eqb data p 3 $"BZh" Hp eq_refl ltac:(discriminate)) as S1.
  destruct (str_eqb (zslice data p 3) $"BZh"); cbn [fst]; [|eexists; split; [reflexivity|intuition discriminate]]. eexists. split; [reflexivity|].
  pose proof (len_zslice data p 4 Hp ltac:(lia)) as L. assert (stands_at data p $"BZh") as St by now apply S1. apply stands_slice in St as (_ & B & _). change (len $"BZh") with 3 in B.
  set (m := map ascii_of_nat _) in *. change (map chr _) with m. assert (len m = 6) as Lm by reflexivity.
  destruct (Z.le_gt_cases (p + 4) (len data)) as [C|C].
  - replace (p + len (zslice data p 4)) with (p + 4) by lia. rewrite slice_eqb; [|lia|reflexivity|discriminate]. intuition.
  - rewrite zslice_nil_ge by lia. split; [discriminate|]. intros [_ H]. apply stands_slice in H as (_ & H & _). lia.
Qed.
Lemma zlib_check data p : 0 <= p -> exists b, fst (check_zlib_header data p) = Ok b /\
  (b = true <-> exists c f, stands_at data p [c; f] /\
    let cmf := Z.of_nat (nat_of_ascii c) in let flags := Z.of_nat (nat_of_ascii f) in
    cmf mod 16 = 8 /\ cmf / 16 <= 7 /\ (256 * cmf + flags) mod 31 = 0 /\ (flags / 32) mod 2 = 0).
Proof.
  intros Hp. unfold check_zlib_header, read. cbn [fst]. destruct (zslice data p 2) as [|c [|f r]] eqn:E.
  - eexists. split; [reflexivity|]. split; [discriminate|]. intros (c & f & H & _). apply stands_slice in H as (H & _ & _). change (len [c; f]) with 2 in H. rewrite E in H. discriminate.
  - eexists. split; [reflexivity|]. split; [discriminate|]. intros (c' & f & H & _). apply stands_slice in H as (H & _ & _). change (len [c'; f]) with 2 in H. rewrite E in H. discriminate.
  - assert (r = []) as ->. { assert (len (zslice data p 2) <= 2) as L by (rewrite len_zslice by lia; lia). rewrite E in L. destruct r; [reflexivity|]. rewrite !len_cons in L. pose proof (len_nonneg r). lia. }
    assert (stands_at data p [c; f]) as St by (apply (slice_eqb data p 2 [c; f] Hp eq_refl ltac:(discriminate)); rewrite E; apply str_eqb_refl).
    unfold ord. set (cm := Z.of_nat (nat_of_ascii c)). set (fl := Z.of_nat (nat_of_ascii f)).
    change 15 with (Z.ones 4). rewrite Z.land_ones, Z.shiftr_div_pow2, Z.shiftl_mul_pow2 by lia. change (2 ^ 4) with 16. change (2 ^ 8) with 256.
    change (Z.land (Z.shiftr fl 5) 1) with (Z.land (Z.shiftr fl 5) (Z.ones 1)). rewrite Z.land_ones, Z.shiftr_div_pow2 by lia. change (2 ^ 1) with 2. change (2 ^ 5) with 32. rewrite (Z.mul_comm cm 256).
    assert (forall b, (b = true <-> (cm mod 16 = 8 /\ cm / 16 <= 7 /\ (256 * cm + fl) mod 31 = 0 /\ (fl / 32) mod 2 = 0)) -> (b = true <-> exists c f, stands_at data p [c; f] /\
      (let cmf := Z.of_nat (nat_of_ascii c) in let flags := Z.of_nat (nat_of_ascii f) in cmf mod 16 = 8 /\ cmf / 16 <= 7 /\ (256 * cmf + flags) mod 31 = 0 /\ (flags / 32) mod 2 = 0))) as Go.
    { intros b ->. split; [intros H; now exists c, f|]. intros (c' & f' & H & Q). apply stands_slice in H as (H & _ & _). change (len [c'; f']) with 2 in H. rewrite E in H. injection H as -> ->. exact Q. }
    destruct (Z.eqb_spec (cm mod 16) 8) as [C1|C1]; cbn [negb]; [|eexists; split; [reflexivity|]; apply Go; split; [discriminate|tauto]].
    destruct (Z.ltb_spec 7 (cm / 16)) as [C2|C2]; [eexists; split; [reflexivity|]; apply Go; split; [discriminate|lia]|].
    destruct (Z.eqb_spec ((256 * cm + fl) mod 31) 0) as [C3|C3]; cbn [negb]; [|eexists; split; [reflexivity|]; apply Go; split; [discriminate|tauto]].
    eexists. split; [reflexivity|]. apply Go. rewrite negb_involutive, Z.eqb_eq. tauto.
Qed.

(** *** HTML *)
Lemma lower_low c : lower c = low c.
Proof. destruct c as [[] [] [] [] [] [] [] []]; vm_compute; reflexivity. Qed.
Lemma is_space_white c : is_space c = true <-> white c.
Proof. destruct c as [[] [] [] [] [] [] [] []]; unfold white; cbn; split; intros H; try discriminate; try tauto; repeat (destruct H as [H|H]; [discriminate|]); destruct H. Qed.
Lemma search_spec f s : search f s = true <-> exists a b, s = a ++ b /\ f b = true.
Proof.
  induction s as [|c s IH]; cbn [search]; rewrite orb_true_iff.
  - split; [intros [H|H]; [now exists [], []|discriminate]|]. intros (a & b & E & H). left. destruct a; [|discriminate]. cbn in E. now subst b.
  - rewrite IH. split.
    + intros [H|(a & b & -> & H)]; [now exists [], (c :: s)|now exists (c :: a), b].
    + intros (a & b & E & H). destruct a as [|x a]; [cbn in E; subst b; now left|]. injection E as -> ->. right. now exists a, b.
Qed.
Lemma search_stands f s (P : str -> Prop) : (forall b, f b = true <-> exists t u, P t /\ b = t ++ u) -> (search f s = true <-> exists t, P t /\ exists p, stands_at s p t).
Proof.
  intros H. rewrite search_spec. split.
  - intros (a & b & -> & F). apply H in F as (t & u & T & ->). exists t. split; [exact T|]. exists (Z.of_nat (length a)), a, u. auto.
  - intros (t & T & p & a & b & -> & _). exists a, (t ++ b). split; [reflexivity|]. apply H. now exists t, b.
Qed.
Lemma after_spec p s r : after p s = Some r <-> s = p ++ r.
Proof.
  unfold after. destruct (starts_with p s) eqn:E.
  - apply starts_with_spec in E as [t ->]. rewrite skipn_app, skipn_all, Nat.sub_diag. cbn. split; [now intros [= ->]|]. intros E. apply app_inv_head in E. now subst.
  - split; [discriminate|]. intros ->. rewrite starts_with_app in E. discriminate.
Qed.
Lemma ends_tag_spec s : ends_tag s = true <-> exists c r, s = c :: r /\ (white c \/ c = ">"%char).
Proof.
  destruct s as [|c r]; cbn [ends_tag]; [split; [discriminate|intros (c & r & [=] & _)]|]. rewrite orb_true_iff, is_space_white. destruct (char_eqb_spec c ">"%char) as [->|N].
  - split; [intros _; exists ">"%char, r; auto|auto].
  - split; [intros [H|H]; [exists c, r; auto|discriminate]|]. intros (c' & r' & [= <- <-] & [H|H]); [now left|contradiction].
Qed.
Lemma after_ends p s : match after p s with Some r => ends_tag r | None => false end = true <-> exists c r, (white c \/ c = ">"%char) /\ s = p ++ c :: r.
Proof.
  destruct (after p s) as [t|] eqn:E.
  - apply after_spec in E as ->. rewrite ends_tag_spec. split; [intros (c & r & -> & H); now exists c, r|]. intros (c & r & H & E). apply app_inv_head in E. now exists c, r.
  - split; [discriminate|]. intros (c & r & _ & ->). assert (after p (p ++ c :: r) = Some (c :: r)) as X by now apply after_spec. congruence.
Qed.
Lemma skip_spaces_spec s : exists w, Forall white w /\ s = w ++ skip_spaces s /\ match skip_spaces s with c :: _ => ~ white c | [] => True end.
Proof.
  induction s as [|c s IH]; [exists []; repeat split; constructor|]. cbn [skip_spaces]. destruct (is_space c) eqn:E.
  - destruct IH as (w & F & Es & H). exists (c :: w). split; [constructor; [now apply is_space_white|exact F]|]. split; [cbn; now rewrite <- Es|exact H].
  - exists []. split; [constructor|]. split; [reflexivity|]. intros W. apply is_space_white in W. congruence.
Qed.
Lemma white_split w : forall x w' x', Forall white w -> Forall white w' -> match x with c :: _ => ~ white c | [] => True end -> match x' with c :: _ => ~ white c | [] => True end ->
  w ++ x = w' ++ x' -> x = x'.
Proof.
  induction w as [|c w IH]; intros x w' x' F F' H H' E; cbn in E.
  - destruct w' as [|d w']; [exact E|]. subst x. inversion F'; subst. cbn in H. contradiction.
  - inversion F; subst. destruct w' as [|d w']; [cbn in E; subst x'; cbn in H'; contradiction|]. injection E as -> E. inversion F'; subst. now apply (IH x w' x').
Qed.
Lemma tag_spec b : tag_at b = true <-> exists t u, tag t /\ b = t ++ u.
Proof.
  unfold tag_at. rewrite orb_true_iff. split.
  - intros [H|H].
    + apply existsb_exists in H as (w & Iw & H). apply after_ends in H as (c & r & Hc & ->). exists ($"<" ++ w ++ [c]), r. split; [|now rewrite <- !app_assoc]. exists c. split; [exact Hc|]. left. apply in_map_iff. now exists w.
    + destruct (after $"<a" b) as [[|c r]|] eqn:E; try discriminate. apply after_spec in E as ->. apply andb_true_iff in H as [Hs H]. apply after_ends in H as (e & r' & He & H). apply is_space_white in Hs.
      destruct (skip_spaces_spec r) as (w & Fw & Ew & _). exists ($"<a" ++ (c :: w) ++ $"href" ++ [e]), r'. split.
      * exists e. split; [exact He|]. right. exists (c :: w). split; [discriminate|]. split; [now constructor|reflexivity].
      * rewrite Ew, H. rewrite <- !app_assoc. reflexivity.
  - intros (t & u & (c & Hc & [H|(w & Nw & Fw & ->)]) & ->).
    + left. apply in_map_iff in H as (w & <- & Iw). apply existsb_exists. exists w. split; [exact Iw|]. apply after_ends. exists c, u. split; [exact Hc|]. now rewrite <- !app_assoc.
    + right. destruct w as [|s w]; [congruence|]. inversion Fw as [|? ? Hs Fw']; subst.
      assert (after $"<a" (($"<a" ++ (s :: w) ++ $"href" ++ [c]) ++ u) = Some (s :: w ++ $"href" ++ c :: u)) as ->.
      { apply after_spec. rewrite <- !app_assoc. reflexivity. }
      apply andb_true_iff. split; [now apply is_space_white|]. apply after_ends. exists c, u. split; [exact Hc|]. destruct (skip_spaces_spec (w ++ $"href" ++ c :: u)) as (w' & Fw2 & Ew & Hw).
      symmetry. apply (white_split w _ w'); [exact Fw'|exact Fw2| |exact Hw|exact Ew]. intros X. unfold white in X. cbn in X. repeat (destruct X as [X|X]; [discriminate|]). destruct X.
Qed.
Lemma low_zero c : low c = zero <-> c = zero.
Proof. destruct c as [[] [] [] [] [] [] [] []]; split; intros H; try discriminate H; try reflexivity; vm_compute in H; discriminate H. Qed.
Lemma html_check data p : 0 <= p -> exists b, is_html_file data p = (Ok b, p) /\ (b = true <-> html (firstn 512 (skipn (Z.to_nat p) data))).
Proof.
  intros Hp. unfold is_html_file, read. eexists. split; [reflexivity|]. change (zslice data p 512) with (firstn 512 (skipn (Z.to_nat p) data)). set (h := firstn 512 _). clearbody h.
  rewrite (map_ext _ _ lower_low). unfold html.
  assert (existsb (char_eqb zero) (map low h) = true <-> In zero h) as Z0.
  { rewrite existsb_exists. split.
    - intros (x & I & E). destruct (char_eqb_spec zero x) as [E0|]; [|discriminate]. apply in_map_iff in I as (c & E2 & I). rewrite <- E0 in E2. rewrite (proj1 (low_zero c) E2) in I. exact I.
    - intros I. exists zero. split; [apply in_map_iff; exists zero; split; [now apply low_zero|exact I]|]. destruct (char_eqb_spec zero zero); congruence. }
  change (ascii_of_nat 0) with zero. destruct (existsb (char_eqb zero) (map low h)).
  - split; [discriminate|]. intros [N _]. exfalso. apply N. now apply Z0.
  - assert (~ In zero h) as N by (intros I; apply Z0 in I; discriminate). rewrite orb_true_iff.
    rewrite (search_stands _ _ (fun t => t = $"<!doctype html")) by (intros b; rewrite starts_with_spec; split; [intros [t ->]; now exists $"<!doctype html", t|intros (t & u & -> & ->); now exists u]).
    rewrite (search_stands _ _ tag tag_spec). split.
    + intros [(t & T & P)|(t & T & P)]; (split; [exact N|]; exists t; auto).
    + intros (_ & t & [T|T] & P); [left|right]; now exists t.
Qed.

(** *** ASAR *)
Lemma u32_little s : u32 s = little s.
Proof. unfold u32. induction s as [|c s IH]; [reflexivity|]. cbn [fold_right little]. now rewrite IH. Qed.
Lemma asar_check data p : 0 <= p -> exists b, is_asar data p = (Ok b, p) /\
  (b = true <-> exists n, has_number data (p + 12) 4 n /\ has_number data p 4 4 /\
    has_number data (p + 4) 4 ((n + 3) / 4 * 4 + 8) /\ has_number data (p + 8) 4 ((n + 3) / 4 * 4 + 4)).
Proof.
  intros Hp. unfold is_asar. eexists. split; [reflexivity|]. unfold find_asar_header. cbv zeta. change (zslice (zskip p data) 0 16) with (ztake 16 (zskip 0 (zskip p data))). rewrite zskip_0. change (ztake 16 (zskip p data)) with (zslice data p 16).
  assert (forall q n v, (0 < n)%nat -> 0 <= q -> has_number data q n v -> q + Z.of_nat n <= len data /\ little (zslice data q (Z.of_nat n)) = v) as Num by (intros; now apply has_number_slice).
  destruct (Z.eqb_spec (len (zslice data p 16)) 16) as [L|L]; cbn [negb].
  2: { split; [discriminate|]. intros (n & H & _). apply Num in H as [H _]; [|lia|lia]. exfalso. apply L. apply slice_full; [lia|lia|]. cbn in H. lia. }
  apply slice_full in L; [|lia|lia]. rewrite !zslice_zslice by lia. rewrite Z.add_0_r. rewrite (u32_little (zslice data p 4)), (u32_little (zslice data (p + 4) 4)), (u32_little (zslice data (p + 8) 4)), (u32_little (zslice data (p + 12) 4)).
  assert (forall q n, (0 < n)%nat -> 0 <= q -> q + Z.of_nat n <= len data -> has_number data q n (little (zslice data q (Z.of_nat n)))) as Has by (intros; apply has_number_slice; auto).
  assert (has_number data p 4 (little (zslice data p 4))) as H1 by (apply (Has p 4%nat); lia). assert (has_number data (p + 4) 4 (little (zslice data (p + 4) 4))) as H2 by (apply (Has (p + 4) 4%nat); lia).
  assert (has_number data (p + 8) 4 (little (zslice data (p + 8) 4))) as H3 by (apply (Has (p + 8) 4%nat); lia). assert (has_number data (p + 12) 4 (little (zslice data (p + 12) 4))) as H4 by (apply (Has (p + 12) 4%nat); lia).
  set (a := little (zslice data p 4)) in *. set (b := little (zslice data (p + 4) 4)) in *. set (c := little (zslice data (p + 8) 4)) in *. set (n := little (zslice data (p + 12) 4)) in *. clearbody a b c n.
  assert (n + (4 - n mod 4) mod 4 = (n + 3) / 4 * 4) as Pad.
  { pose proof (Z.div_mod n 4 ltac:(lia)). pose proof (Z.mod_pos_bound n 4 ltac:(lia)). set (q := n / 4) in *. set (r := n mod 4) in *. destruct (Z.eq_dec r 0) as [E|E].
    - rewrite E in *. change ((4 - 0) mod 4) with 0. replace (n + 3) with (3 + q * 4) by lia. rewrite Z.div_add by lia. change (3 / 4) with 0. lia.
    - rewrite (Z.mod_small (4 - r)) by lia. replace (n + 3) with ((r - 1) + (q + 1) * 4) by lia. rewrite Z.div_add by lia. rewrite (Z.div_small (r - 1)) by lia. lia. }
  rewrite Pad. 
  destruct (Z.eqb_spec a 4) as [E1|E1]; cbn [negb]; [|split; [discriminate|]; intros (m & _ & H & _); pose proof (has_number_fun _ _ _ _ _ H1 H); contradiction].
  destruct (Z.eqb_spec b (c + 4)) as [E2|E2]; cbn [negb].
  2: { split; [discriminate|]. intros (m & Hm & _ & Hb & Hc). pose proof (has_number_fun _ _ _ _ _ H2 Hb). pose proof (has_number_fun _ _ _ _ _ H3 Hc). lia. }
  destruct (Z.eqb_spec c ((n + 3) / 4 * 4 + 4)) as [E3|E3]; cbn [negb].
  - split; [intros _|reflexivity]. exists n. split; [exact H4|]. rewrite <- E3. replace ((n + 3) / 4 * 4 + 8) with b by lia. subst a. auto.
  - split; [discriminate|]. intros (m & Hm & _ & _ & Hc). pose proof (has_number_fun _ _ _ _ _ H4 Hm). subst m. pose proof (has_number_fun _ _ _ _ _ H3 Hc). lia.
Qed.

(** ** detect_formats *)
Lemma tables_step t f two fid :
  let t' := add_format t f in
  (In fid (snd t') <-> In fid (snd t) \/ fid = fst f /\ forall a b r, magicBytes (snd f) <> Some (a :: b :: r)) /\
  ((exists l, dget str_eqb (fst t') two = Some l /\ In fid l) <->
   (exists l, dget str_eqb (fst t) two = Some l /\ In fid l) \/ fid = fst f /\ exists a b r, magicBytes (snd f) = Some (a :: b :: r) /\ two = [a; b]).
Proof.
  destruct t as [by_magic without], f as [id info]. cbn zeta. cbn [fst snd]. unfold add_format.
  assert (forall m, magicBytes info = m -> (forall a b r, m <> Some (a :: b :: r)) -> let t' := (by_magic, without ++ [id]) in
    (In fid (snd t') <-> In fid without \/ fid = id /\ forall a b r, magicBytes info <> Some (a :: b :: r)) /\
    ((exists l, dget str_eqb (fst t') two = Some l /\ In fid l) <-> (exists l, dget str_eqb by_magic two = Some l /\ In fid l) \/ fid = id /\ exists a b r, magicBytes info = Some (a :: b :: r) /\ two = [a; b])) as Short.
  { intros m Em N. cbn [fst snd]. rewrite in_app_iff. cbn [In]. rewrite Em. split; [split; [intros [I|[->|[]]]; auto|intros [I|[-> _]]; auto]|]. split; [auto|]. intros [H|(_ & a & b & r & E & _)]; [exact H|]. exfalso. exact (N a b r E). }
  destruct (magicBytes info) as [[|a [|b r]]|] eqn:Em; try (apply (Short _ eq_refl); discriminate). clear Short. cbn [fst snd]. split.
  - split; [auto|]. intros [I|[_ N]]; [exact I|]. exfalso. exact (N a b r eq_refl).
  - set (bm := if dmem str_eqb by_magic [a; b] then by_magic else dset str_eqb by_magic [a; b] []).
    assert (exists l, dget str_eqb bm [a; b] = Some l /\ (dget str_eqb by_magic [a; b] = Some l \/ dget str_eqb by_magic [a; b] = None /\ l = [])) as (l & El & Hl).
    { unfold bm, dmem. destruct (dget str_eqb by_magic [a; b]) as [l|] eqn:E; [exists l; auto|]. exists []. rewrite (dget_dset_same str_eqb str_eqb_spec). auto. }
    assert (forall k, k <> [a; b] -> dget str_eqb bm k = dget str_eqb by_magic k) as Other.
    { intros k Nk. unfold bm. destruct (dmem str_eqb by_magic [a; b]); [reflexivity|]. now rewrite (dget_dset_other str_eqb str_eqb_spec). }
    rewrite El. rewrite (dget_dset str_eqb str_eqb_spec). destruct (str_eqb_spec two [a; b]) as [->|N].
    + split.
      * intros (l' & [= <-] & I). apply in_app_or in I as [I|[<-|[]]]; [left|right; split; [reflexivity|now exists a, b, r]]. destruct Hl as [Hl|[_ ->]]; [now exists l|destruct I].
      * intros [(l' & E & I)|[-> _]]; (eexists; split; [reflexivity|]; apply in_or_app); [left|right; now left]. destruct Hl as [Hl|[Hl _]]; congruence.
    + rewrite Other by exact N. split; [auto|]. intros [H|(_ & a' & b' & r' & [= <- <- <-] & E)]; [exact H|contradiction].
Qed.
Lemma tables_all formats : forall t two fid,
  let t' := recompute_cached_magic_bytes t formats in
  (In fid (snd t') <-> In fid (snd t) \/ exists info, In (fid, info) formats /\ forall a b r, magicBytes info <> Some (a :: b :: r)) /\
  ((exists l, dget str_eqb (fst t') two = Some l /\ In fid l) <->
   (exists l, dget str_eqb (fst t) two = Some l /\ In fid l) \/ exists info a b r, In (fid, info) formats /\ magicBytes info = Some (a :: b :: r) /\ two = [a; b]).
Proof.
  unfold recompute_cached_magic_bytes. induction formats as [|[id info] formats IH]; intros t two fid; cbn zeta; cbn [fold_left].
  - split; (split; [auto|]); [intros [H|(i & [] & _)]|intros [H|(i & a & b & r & [] & _)]]; exact H.
  - destruct (IH (add_format t (id, info)) two fid) as [I1 I2]. destruct (tables_step t (id, info) two fid) as [S1 S2]. cbn zeta in *. cbn [fst snd] in S1, S2. rewrite I1, I2, S1, S2. split; split.
    + intros [[H|[-> H]]|(i & I & H)]; [auto|right; exists info; split; [now left|exact H]|right; exists i; split; [now right|exact H]].
    + intros [H|(i & [E|I] & H')]; [auto|injection E as -> ->; auto|right; now exists i].
    + intros [[H|(-> & a & b & r & H)]|(i & a & b & r & I & H)]; [auto|right; exists info, a, b, r; split; [now left|exact H]|right; exists i, a, b, r; split; [now right|exact H]].
    + intros [H|(i & a & b & r & [E|I] & H')]; [auto|injection E as -> ->; left; right; split; [reflexivity|now exists a, b, r]|right; now exists i, a, b, r].
Qed.

Lemma test_formats_spec formats data pos : forall fids, NoDup (dkeys formats) -> 
  (forall fid, In fid fids -> exists info, In (fid, info) formats) -> (forall fid info, In (fid, info) formats -> exists b, fst (might_be_format data pos info) = Ok b) ->
  exists l, test_formats formats data pos fids = (Ok l, pos) /\ forall fid, In fid l <-> In fid fids /\ exists info, In (fid, info) formats /\ fst (might_be_format data pos info) = Ok true.
Proof.
  induction fids as [|fid fids IH]; intros N K H; cbn [test_formats]; [exists []; split; [reflexivity|]; cbn; tauto|].
  destruct (K fid (or_introl eq_refl)) as (info & Ii). rewrite (NoDup_dget Z.eqb Z.eqb_spec formats fid info N Ii). destruct (H fid info Ii) as (b & Eb). pose proof (position data pos info) as P.
  destruct (might_be_format data pos info) as [r q] eqn:Em. cbn [fst snd] in Eb, P. subst r q. destruct (IH N (fun f I => K f (or_intror I)) H) as (l & -> & L).
  assert (forall info', In (fid, info') formats -> info' = info) as U. { intros info' I'. apply (NoDup_dget Z.eqb Z.eqb_spec formats fid info' N) in I'. apply (NoDup_dget Z.eqb Z.eqb_spec formats fid info N) in Ii. congruence. }
  eexists. split; [reflexivity|]. intros f. destruct b; cbn [In]; rewrite ?L.
  - split; [intros [<-|[I X]]; [split; [now left|]; exists info; split; [exact Ii|now rewrite Em]|split; [now right|exact X]]|]. intros [[<-|I] X]; [now left|right; auto].
  - split; [intros [I X]; auto|]. intros [[<-|I] (i & Ii' & Ei)]; [|split; [exact I|now exists i]]. rewrite (U i Ii'), Em in Ei. discriminate.
Qed.

Lemma detect_all formats t data pos : 0 <= pos -> pos + 2 <= len data -> NoDup (dkeys formats) ->
  (forall fid, In fid (snd t) \/ (exists two l, dget str_eqb (fst t) two = Some l /\ In fid l) -> exists info, In (fid, info) formats) ->
  (forall fid info, In (fid, info) formats -> (forall a b r, magicBytes info <> Some (a :: b :: r)) -> In fid (snd t)) ->
  (forall fid info a b r, In (fid, info) formats -> magicBytes info = Some (a :: b :: r) -> exists l, dget str_eqb (fst t) [a; b] = Some l /\ In fid l) ->
  (forall fid info, In (fid, info) formats -> exists b, fst (might_be_format data pos info) = Ok b) ->
  exists l, detect_formats formats t data pos = (Ok l, pos) /\ forall fid, In fid l <-> exists info, In (fid, info) formats /\ fst (might_be_format data pos info) = Ok true.
Proof.
  intros Hp L N K T1 T2 H. unfold detect_formats, read. assert (len (zslice data pos 2) = 2) as L2 by (apply slice_full; lia). rewrite L2. cbn [Z.ltb]. change (2 <? 2) with false. cbn iota.
  set (F := match dget str_eqb (fst t) (zslice data pos 2) with Some l => l | None => [] end).
  destruct (test_formats_spec formats data pos (F ++ snd t) N) as (l & E & Hl).
  - intros fid I. apply in_app_or in I as [I|I]; apply K; [right|now left]. unfold F in I. destruct (dget str_eqb (fst t) (zslice data pos 2)) as [l|] eqn:G; [|destruct I]. now exists (zslice data pos 2), l.
  - exact H.
  - exists l. split; [exact E|]. intros fid. rewrite Hl. split; [tauto|]. intros (info & I & M). split; [|now exists info]. apply in_or_app.
    destruct (magicBytes info) as [[|a [|b r]]|] eqn:Em; try (right; apply (T1 fid info I); intros; rewrite Em; discriminate). left.
    apply (proj1 (verdict data pos info Hp (Ok true))) in M. destruct M as [(m & _ & _ & _ & [=])|[M _]]. specialize (M _ Em ltac:(discriminate)).
    destruct (stands_slice _ _ _ M) as (Es & _ & _). destruct (T2 fid info a b r I Em) as (l0 & G & I0).
    assert (zslice data pos 2 = [a; b]) as E2.
    { replace (zslice data pos 2) with (zslice (zslice data pos (len (a :: b :: r))) 0 2). - rewrite Es. reflexivity. - rewrite zslice_zslice; [now rewrite Z.add_0_r|lia|pose proof (len_nonneg (a :: b :: r)); lia|lia|lia|]. rewrite !len_cons. pose proof (len_nonneg r). lia. }
    unfold F. rewrite E2, G. exact I0.
Qed.

(** ** The table of formats *)
(** The check never raises and rejects files with less than two bytes. *)
Definition sane (c : checker) : Prop := forall data pos, 0 <= pos -> exists b, fst (c data pos) = Ok b /\ (b = true -> pos + 2 <= len data).
Definition sane_format (info : format) : Prop :=
  (magicBytes info = None \/ exists a b r, magicBytes info = Some (a :: b :: r)) /\ match checkHeader info with Some c => sane c | None => True end.

Lemma stands_len data p s : stands_at data p s -> p + len s <= len data.
Proof. intros S. now apply stands_slice. Qed.
Lemma number_len data p n v : (0 < n)%nat -> 0 <= p -> has_number data p n v -> p + Z.of_nat n <= len data.
Proof. intros Hn Hp H. now apply has_number_slice in H. Qed.

Lemma sane_avi : sane is_avi.
Proof. intros data p Hp. destruct (avi_check data p Hp) as (b & -> & H). exists b. split; [reflexivity|]. intros E. apply H in E as [E _]. apply stands_len in E. change (len $"RIFF") with 4 in E. lia. Qed.
Lemma sane_cpio : sane is_cpio.
Proof.
  intros data p Hp. destruct (cpio_check data p Hp) as (b & E & H). exists b. split; [exact E|]. intros X. apply H in X as [X|[X|X]]; apply stands_len in X; [change (len $"07070") with 5 in X; lia| |].
  - change (len [chr 113; chr 199]) with 2 in X. lia.
  - change (len [chr 199; chr 113]) with 2 in X. lia.
Qed.
Lemma sane_iso : sane is_iso9660.
Proof.
  intros data p Hp. destruct (iso_check data p Hp) as (b & E & H). exists b. split; [exact E|]. intros X. apply H in X as [X|X]; apply stands_len in X; [change (len $"CD001") with 5 in X|change (len $"NSR0") with 4 in X]; lia.
Qed.
Lemma sane_bzip2 : sane is_bzip2.
Proof. intros data p Hp. destruct (bzip2_check data p Hp) as (b & E & H). exists b. split; [exact E|]. intros X. apply H in X as [X _]. apply stands_len in X. change (len $"BZh") with 3 in X. lia. Qed.
Lemma sane_zlib : sane check_zlib_header.
Proof. intros data p Hp. destruct (zlib_check data p Hp) as (b & E & H). exists b. split; [exact E|]. intros X. apply H in X as (c & f & X & _). apply stands_len in X. change (len [c; f]) with 2 in X. lia. Qed.
Lemma sane_frames last : plain last -> sane (check_frames last).
Proof.
  intros P data p Hp. destruct (check_frames_spec last data p P Hp) as (b & E & H). exists b. split; [exact E|]. intros X. apply H in X as (q & S & X).
  inversion S as [|? ? kind size K Hk Hs S']; subst; [apply number_len in X; lia|apply number_len in Hk; lia].
Qed.
Lemma sane_asar : sane is_asar.
Proof. intros data p Hp. destruct (asar_check data p Hp) as (b & -> & H). exists b. split; [reflexivity|]. intros X. apply H in X as (n & _ & X & _). apply number_len in X; lia. Qed.
Lemma sane_html : sane is_html_file.
Proof.
  intros data p Hp. destruct (html_check data p Hp) as (b & -> & H). exists b. split; [reflexivity|]. intros X. apply H in X as (_ & s & Hs & k & S).
  assert (2 <= len s) as L. { destruct Hs as [->|(c & _ & [I|(w & _ & _ & ->)])]; [vm_compute; discriminate| |].
    - apply in_map_iff in I as (w & <- & _). rewrite !len_app. pose proof (len_nonneg w). change (len $"<") with 1. change (len [c]) with 1. lia.
    - rewrite !len_app. pose proof (len_nonneg w). change (len $"<a") with 2. change (len $"href") with 4. change (len [c]) with 1. lia. }
  pose proof (stands_len _ _ _ S) as B. destruct S as (a & t & _ & Ek). unfold len in B at 2. rewrite map_length, firstn_length, skipn_length in B. unfold len in *. lia.
Qed.
Lemma loop_ok fuel file data : forall m, 0 <= m <= len data -> len data - m < Z.of_nat fuel -> exists r, squashfs_loop fuel file data m = Ok r /\ (0 <= r -> 4 <= len data).
Proof.
  induction fuel as [|f IH]; intros m Hm F; [lia|]. cbn [squashfs_loop]. destruct (find_spec data $"hsqs" (m + 1) ltac:(lia) ltac:(discriminate)) as [[E N]|(k & E & Hk & S & N)]; rewrite E.
  - exists (-1). split; [reflexivity|lia].
  - apply stands_len in S. change (len $"hsqs") with 4 in S. destruct (Z.ltb_spec k 0); [lia|]. destruct (Z.leb_spec (len data) k); [lia|]. cbn [orb].
    destruct (squashfs_check file k ltac:(lia)) as ([] & Eb & _); rewrite Eb; [exists k; split; [reflexivity|lia]|]. apply IH; lia.
Qed.
Lemma sane_squashfs : sane check_squashfs.
Proof.
  intros data p Hp. unfold check_squashfs, find_squashfs_offset. destruct (squashfs_check data p Hp) as ([] & -> & H).
  - exists true. split; [reflexivity|]. intros _. destruct (proj1 H eq_refl) as (S & _). apply stands_len in S. change (len $"hsqs") with 4 in S. lia.
  - unfold read. set (d := zslice data p (1048576 + 4)). destruct (loop_ok (S (length d)) data d 0) as (r & -> & Hr); [pose proof (len_nonneg d); lia|unfold len; lia|].
    exists (0 <=? r). split; [reflexivity|]. intros X. apply Z.leb_le in X. specialize (Hr X). unfold d in Hr. rewrite len_zslice in Hr by lia. lia.
Qed.

Lemma sane_might info data pos : sane_format info -> 0 <= pos -> exists b, fst (might_be_format data pos info) = Ok b /\ (b = true -> pos + 2 <= len data).
Proof.
  intros [M C] Hp. pose proof (proj1 (verdict data pos info Hp _) eq_refl) as V. destruct V as [(m & _ & _ & _ & ->)|[V1 V2]]; [now exists false|].
  destruct (checkHeader info) as [c|]; [destruct (C data pos Hp) as (b & E & H); exists b; now rewrite V2|]. destruct V2 as [[-> (m & Em & _)]|[-> _]]; [|now exists false].
  exists true. split; [reflexivity|]. intros _. destruct M as [M|(a & b & r & M)]; [congruence|]. specialize (V1 _ M ltac:(discriminate)). apply stands_len in V1. rewrite !len_cons in V1. pose proof (len_nonneg r). lia.
Qed.
Lemma sane_table is_tar is_zipfile check_deflate : sane is_tar -> sane is_zipfile -> sane check_deflate ->
  Forall (fun f => sane_format (snd f)) (file_formats is_tar is_zipfile check_deflate).
Proof.
  intros H1 H2 H3. assert (plain 407708164) as P1 by (unfold plain; lia). assert (plain 4247762216) as P2 by (unfold plain; lia).
  unfold file_formats. repeat apply Forall_cons; try apply Forall_nil; cbn [snd]; (split; [first [left; reflexivity|right; do 3 eexists; reflexivity]|]); cbn [checkHeader]; try exact I;
    first [exact H1|exact H2|exact H3|exact sane_avi|exact sane_cpio|exact sane_iso|exact sane_bzip2|exact sane_zlib|exact sane_asar|exact sane_html|exact sane_squashfs|now apply sane_frames].
Qed.
Lemma table_keys a b c : NoDup (dkeys (file_formats a b c)).
Proof. unfold file_formats, dkeys. cbn. repeat (apply NoDup_cons; [cbn; intros X; repeat (destruct X as [X|X]; [discriminate X|]); exact X|]). apply NoDup_nil. Qed.
