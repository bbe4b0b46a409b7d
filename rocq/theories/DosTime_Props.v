(** C134: the modification times of the entries of ZIP and RAR archives. *)
From Coq Require Import ZArith List Bool Lia.
From Verif Require Import PyBase FsTime_Model FsTime_Spec FsTime_Proofs DosTime_Model DosTime_Spec.
Import ListNotations.
Local Open Scope Z_scope.

Lemma date_bounds n y mo d : day_number n (y, mo, d) -> 1 <= mo <= 12 /\ 1 <= d <= 31 /\ d <= nth (Z.to_nat (mo - 1)) (month_lengths y) 0.
Proof.
  intros N. apply day_number_ord in N as [D _]. apply date_length in D as [M D]. repeat split; try lia.
  pose proof (last_exists y mo M) as L. destruct L as [(_ & L)|[(_ & L)|[(_ & _ & L)|(_ & _ & L)]]]; lia.
Qed.
Lemma datetime_instant t y mo d h m s : instant t (y, mo, d) h m s -> 1 <= y <= 9999 ->
  datetime (mkFields y mo d h m s) = Ok (mkFields y mo d h m s) /\ timegm (mkFields y mo d h m s) = t.
Proof.
  intros (n & N & H & M & S & ->) Y. pose proof (date_bounds _ _ _ _ N) as (B1 & B2 & B3). apply day_number_ord in N as [_ E]. split.
  - unfold datetime. cbn [f_year f_month f_day f_hour f_minute f_second].
    repeat match goal with |- context [?a <=? ?b] => replace (a <=? b) with true by lia end. reflexivity.
  - unfold timegm. cbn [f_year f_month f_day f_hour f_minute f_second]. unfold ord in E. rewrite E. lia.
Qed.
Lemma date_time_back y mo d h m s : 1980 <= y -> 1 <= mo <= 12 -> 1 <= d <= 31 -> 0 <= m < 60 -> 0 <= s < 60 -> even s ->
  date_time (dos_date (y, mo, d)) (dos_time h m s) = mkFields y mo d h m s.
Proof.
  intros Y Mo D M S [k E]. unfold date_time, dos_date, dos_time. subst s. rewrite Z.div_mul by lia.
  change 15 with (Z.ones 4). change 31 with (Z.ones 5). change 63 with (Z.ones 6). rewrite !Z.land_ones, !Z.shiftr_div_pow2 by lia.
  change (2 ^ 9) with 512. change (2 ^ 5) with 32. change (2 ^ 4) with 16. change (2 ^ 11) with 2048. change (2 ^ 6) with 64.
  f_equal; Z.to_euclidean_division_equations; lia.
Qed.

(** Every entry that stores an instant is shown with it, in whatever time zone the mount runs, and so are all the entries of an archive in which
    every entry stores one. *)
Theorem C134_zip_time : forall d t x, stores (d, t) x -> zip_mtime d t = Ok x.
Proof.
  intros d t x (((y & mo) & da) & h & m & s & I & Y & E & Eq). cbn [fst] in Y. assert (d = dos_date (y, mo, da) /\ t = dos_time h m s) as [-> ->] by (split; [exact (f_equal fst Eq)|exact (f_equal snd Eq)]). unfold zip_mtime.
  destruct (datetime_instant _ _ _ _ _ _ _ I ltac:(lia)) as [D T]. destruct I as (n & N & H & M & S & _). pose proof (date_bounds _ _ _ _ N) as (B1 & B2 & _).
  rewrite date_time_back by (auto; lia). now rewrite D, T.
Qed.
Print Assumptions C134_zip_time.
Theorem C134_zip_partial : forall l times, Forall2 stores l times -> zip_mtimes l = Ok times.
Proof. induction 1 as [|[d t] x l times H _ IH]; [reflexivity|]. cbn [zip_mtimes]. now rewrite (C134_zip_time _ _ _ H), IH. Qed.
Print Assumptions C134_zip_partial.
Lemma in_month n y m k : day_number n (y, m, 1) -> is_date (y, m, 1 + Z.of_nat k) -> day_number (n + Z.of_nat k) (y, m, 1 + Z.of_nat k).
Proof.
  intros N. induction k as [|k IH]; intros D; [now rewrite Z.add_0_r|]. apply date_length in D as [M D].
  replace (n + Z.of_nat (S k)) with (n + Z.of_nat k + 1) by lia. replace (1 + Z.of_nat (S k)) with (1 + Z.of_nat k + 1) by lia.
  apply one_later with (y, m, 1 + Z.of_nat k); [apply IH, date_length; lia|]. constructor. intros L. apply last_length in L. lia.
Qed.
Lemma in_year n y k : (k < 12)%nat -> day_number n (y, 1, 1) -> exists n, day_number n (y, 1 + Z.of_nat k, 1).
Proof.
  intros K N. induction k as [|k IH]; [eauto|]. destruct (IH ltac:(lia)) as (n' & N').
  pose proof (last_exists y (1 + Z.of_nat k) ltac:(lia)) as L. set (e := nth _ _ _) in L.
  assert (1 <= e) as E by (destruct L as [(_ & L)|[(_ & L)|[(_ & _ & L)|(_ & _ & L)]]]; lia).
  exists (n' + Z.of_nat (Z.to_nat (e - 1)) + 1). replace (1 + Z.of_nat (S k)) with (1 + Z.of_nat k + 1) by lia.
  apply one_later with (y, 1 + Z.of_nat k, e); [|constructor; [exact L|lia]].
  replace e with (1 + Z.of_nat (Z.to_nat (e - 1))) at 2 by lia. apply in_month; [exact N'|]. exists e. split; [exact L|lia].
Qed.
Lemma years k : exists n, day_number n (1970 + Z.of_nat k, 1, 1).
Proof.
  induction k as [|k (n & N)]; [exists 0; constructor|]. destruct (in_year _ _ 11 ltac:(lia) N) as (n' & N').
  exists (n' + Z.of_nat 30 + 1). replace (1970 + Z.of_nat (S k)) with (1970 + Z.of_nat k + 1) by lia. apply one_later with (1970 + Z.of_nat k, 12, 31); [|constructor].
  apply (in_month n' _ 12 30 N'). exists 31. split; [left; cbn; auto 10|lia].
Qed.
(** Every day of the calendar from 1970 has its number. *)
Lemma has_number y m d : 1970 <= y -> is_date (y, m, d) -> day_number (ordinal y m d - 719163) (y, m, d).
Proof.
  intros Y D. pose proof (proj1 (date_length _ _ _) D) as [M B]. destruct (years (Z.to_nat (y - 1970))) as (n & N). replace (1970 + Z.of_nat (Z.to_nat (y - 1970))) with y in N by lia.
  destruct (in_year _ _ (Z.to_nat (m - 1)) ltac:(lia) N) as (n' & N'). replace (1 + Z.of_nat (Z.to_nat (m - 1))) with m in N' by lia.
  pose proof (in_month n' y m (Z.to_nat (d - 1)) N') as K. replace (1 + Z.of_nat (Z.to_nat (d - 1))) with d in K by lia. specialize (K D).
  pose proof (day_number_ord _ _ K) as [_ E]. unfold ord in E. rewrite E. replace (n' + Z.of_nat (Z.to_nat (d - 1)) + 719163 - 719163) with (n' + Z.of_nat (Z.to_nat (d - 1))) by lia. exact K.
Qed.
Example C134_case : stores (22621, 34413) 1709225486 /\ zip_mtimes [(22621, 34413)] = Ok [1709225486].
Proof.
  split; [|reflexivity]. exists (2024, 2, 29), 16, 51, 26. split; [|split; [cbn; lia|split; [now exists 13|reflexivity]]].
  exists 19782. split; [|lia]. apply (has_number 2024 2 29); [lia|]. exists 29. split; [|lia]. right. right. left. repeat split; [now exists 506|left; intros [k K]; lia].
Qed.

(** But one entry without a date, for which month and day are 0, or with any other day that is not in the calendar, and the archive cannot be mounted. *)
Theorem C134_no_date : forall before entry after y mo d t, 1980 <= y <= 2107 -> 0 <= mo < 16 -> 0 <= d < 32 -> ~ is_date (y, mo, d) ->
  entry = (dos_date (y, mo, d), t) -> exists e, zip_mtimes (before ++ entry :: after) = Err e.
Proof.
  intros before entry after y mo d t Y Mo D N ->. induction before as [|[d0 t0] l (e & IH)]; cbn [app zip_mtimes].
  - exists ValueError. unfold zip_mtime.
    assert (date_time (dos_date (y, mo, d)) t = mkFields y mo d (Z.shiftr t 11) (Z.land (Z.shiftr t 5) 63) (Z.land t 31 * 2)) as ->.
    { unfold date_time, dos_date. change 15 with (Z.ones 4). replace (Z.land ((y - 1980) * 512 + mo * 32 + d) 31) with (Z.land ((y - 1980) * 512 + mo * 32 + d) (Z.ones 5)) by reflexivity.
      rewrite !Z.land_ones by lia. rewrite (Z.shiftr_div_pow2 _ 9), (Z.shiftr_div_pow2 ((y - 1980) * 512 + mo * 32 + d) 5) by lia.
      change (2 ^ 9) with 512. change (2 ^ 5) with 32. change (2 ^ 4) with 16. f_equal; Z.to_euclidean_division_equations; lia. }
    unfold datetime. cbn [f_year f_month f_day f_hour f_minute f_second]. rewrite date_length in N.
    destruct (1 <=? mo) eqn:E1; [|now rewrite !andb_false_r]. destruct (mo <=? 12) eqn:E2; [|now rewrite !andb_false_r].
    destruct (1 <=? d) eqn:E3; [|now rewrite !andb_false_r]. replace (d <=? _) with false by lia. now rewrite !andb_false_r.
  - rewrite IH. destruct (zip_mtime d0 t0); eauto.
Qed.
Print Assumptions C134_no_date.
Theorem C134_zip_refuted : ~ (forall l : list (Z * Z), Forall (fun x => 0 <= fst x < 65536 /\ 0 <= snd x < 65536) l -> exists times, zip_mtimes l = Ok times).
Proof. intros A. destruct (A [(0, 0)]) as (times & E); [repeat constructor; cbn [fst snd]; lia|]. discriminate. Qed.
Print Assumptions C134_zip_refuted.

(** The date of an entry of a RAR archive is taken as UTC, too; without one the time is 0. *)
Theorem C134_rar : forall t y mo d h m s, instant t (y, mo, d) h m s -> 1 <= y <= 9999 ->
  rar_mtime (Some (mkFields y mo d h m s)) = Ok t /\ rar_mtime None = Ok 0.
Proof. intros t y mo d h m s I Y. destruct (datetime_instant _ _ _ _ _ _ _ I Y) as [D T]. cbn [rar_mtime]. now rewrite D, T. Qed.
Print Assumptions C134_rar.
Example C134_rar_case : instant 90000 (1970, 1, 2) 1 0 0 /\ rar_mtime (Some (mkFields 1970 1 2 1 0 0)) = Ok 90000.
Proof. split; [|reflexivity]. exists 1. split; [|lia]. apply (has_number 1970 1 2); [lia|]. exists 31. split; [left; cbn; auto|lia]. Qed.
