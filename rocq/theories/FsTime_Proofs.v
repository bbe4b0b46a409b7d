(** Proofs about the modification times of remote files. *)
From Coq Require Import ZArith List Bool Lia.
From Verif Require Import PyBase FsTime_Model FsTime_Spec.
Import ListNotations.
Local Open Scope Z_scope.

Lemma leap_iff y : leap y = true <-> leap_year y.
Proof.
  unfold leap, leap_year. rewrite andb_true_iff, orb_true_iff, negb_true_iff, !Z.eqb_eq, Z.eqb_neq, !Z.mod_divide by lia. reflexivity.
Qed.
Lemma leap_not y : leap y = false <-> ~ leap_year y.
Proof. rewrite <- leap_iff. destruct (leap y); split; congruence. Qed.
Lemma year_length y : before_year (y + 1) = before_year y + 365 + (if leap y then 1 else 0).
Proof.
  unfold before_year, leap. replace (y + 1 - 1) with y by lia.
  destruct (y mod 4 =? 0) eqn:E4, (y mod 100 =? 0) eqn:E1, (y mod 400 =? 0) eqn:E3; cbn [andb orb negb];
    rewrite ?Z.eqb_eq, ?Z.eqb_neq in *; Z.to_euclidean_division_equations; lia.
Qed.
Lemma last_length y m d : last y m d -> 1 <= m <= 12 /\ nth (Z.to_nat (m - 1)) (month_lengths y) 0 = d.
Proof.
  unfold month_lengths. intros [(I & ->)|[(I & ->)|[(-> & L & ->)|(-> & L & ->)]]]; cbn [In] in I || idtac.
  - repeat destruct I as [<-|I]; try destruct I; split; (lia || reflexivity).
  - repeat destruct I as [<-|I]; try destruct I; split; (lia || reflexivity).
  - apply leap_iff in L. rewrite L. split; [lia|reflexivity].
  - apply leap_not in L. rewrite L. split; [lia|reflexivity].
Qed.
Lemma last_exists y m : 1 <= m <= 12 -> last y m (nth (Z.to_nat (m - 1)) (month_lengths y) 0).
Proof.
  intros H. unfold last. assert (m = 2 \/ In m [1; 3; 5; 7; 8; 10; 12] \/ In m [4; 6; 9; 11]) as [-> |[I|I]] by (cbn [In]; lia).
  - right. right. change (nth (Z.to_nat (2 - 1)) (month_lengths y) 0) with (if leap y then 29 else 28). destruct (leap y) eqn:L; [left; apply leap_iff in L|right; apply leap_not in L]; auto.
  - left. split; [exact I|]. cbn [In] in I. repeat destruct I as [<-|I]; try destruct I; reflexivity.
  - right. left. split; [exact I|]. cbn [In] in I. repeat destruct I as [<-|I]; try destruct I; reflexivity.
Qed.
Lemma last_unique y m d d' : last y m d -> last y m d' -> d = d'.
Proof. intros H H'. apply last_length in H as [_ <-]. now apply last_length in H' as [_ <-]. Qed.
Lemma date_length y m d : is_date (y, m, d) <-> 1 <= m <= 12 /\ 1 <= d <= nth (Z.to_nat (m - 1)) (month_lengths y) 0.
Proof.
  split.
  - intros (n & L & D). apply last_length in L as [M <-]. auto.
  - intros (M & D). exists (nth (Z.to_nat (m - 1)) (month_lengths y) 0). split; [now apply last_exists|exact D].
Qed.
Lemma month_step y m : 1 <= m < 12 -> before_month y (m + 1) = before_month y m + nth (Z.to_nat (m - 1)) (month_lengths y) 0.
Proof.
  intros H. assert (In m [1; 2; 3; 4; 5; 6; 7; 8; 9; 10; 11]) as I by (cbn [In]; lia).
  cbn [In] in I. unfold before_month, month_lengths. destruct (leap y); repeat destruct I as [<-|I]; try destruct I; reflexivity.
Qed.
Definition ord (x : date) : Z := let '(y, m, d) := x in ordinal y m d.
Lemma next_ok x x' : is_date x -> next_day x x' -> is_date x' /\ ord x' = ord x + 1.
Proof.
  intros D N. destruct N as [y m d Nl|y m d L N12|y].
  - apply date_length in D as [M D]. split; [|unfold ord, ordinal; lia]. apply date_length. split; [exact M|].
    pose proof (last_exists y m M) as L. destruct (Z.eq_dec d (nth (Z.to_nat (m - 1)) (month_lengths y) 0)) as [E|E]; [rewrite <- E in L; contradiction|lia].
  - apply last_length in L as [M E]. split.
    + apply date_length. split; [lia|]. assert (In m [1; 2; 3; 4; 5; 6; 7; 8; 9; 10; 11]) as I by (cbn [In]; lia). cbn [In] in I. unfold month_lengths.
      destruct (leap y); repeat destruct I as [<-|I]; try destruct I; vm_compute; split; discriminate.
    + unfold ord, ordinal. rewrite month_step by lia. lia.
  - split; [apply date_length; cbn; lia|]. unfold ord, ordinal. rewrite year_length. change (before_month (y + 1) 1) with 0.
    assert (before_month y 12 = 334 + (if leap y then 1 else 0)) as -> by (unfold before_month, month_lengths; destruct (leap y); reflexivity). lia.
Qed.
Lemma day_number_ord n x : day_number n x -> is_date x /\ ord x = n + 719163.
Proof.
  induction 1 as [|n x x' _ [D E] N|n x x' _ [_ E] D N].
  - split; [apply date_length; cbn; lia|reflexivity].
  - destruct (next_ok _ _ D N) as [D' E']. split; [exact D'|lia].
  - destruct (next_ok _ _ D N) as [_ E']. split; [exact D|lia].
Qed.

(** Matching *)
Lemma match_first f fs v r vs e : (forall r, exists l cs l', f = l ++ cs :: l' /\ take cs (v ++ r) = Some (v, r) /\ Forall (fun c => take c (v ++ r) = None) l) ->
  match_fields fs r = Some (vs, e) -> match_fields (f :: fs) (v ++ r) = Some (v :: vs, e).
Proof.
  intros P M. destruct (P r) as (l & cs & l' & -> & T & F). cbn [match_fields]. clear P. induction F as [|c l H F IH]; cbn [app map first_some].
  - now rewrite T, M.
  - rewrite H. exact IH.
Qed.
Lemma digits x : 0 <= x < 100 -> 0 <= x / 10 <= 9 /\ 0 <= x mod 10 <= 9 /\ x = 10 * (x / 10) + x mod 10.
Proof. intros H. Z.to_euclidean_division_equations. lia. Qed.
Ltac ranges := repeat match goal with |- context [?a <=? ?b] => first [replace (a <=? b) with true by lia | replace (a <=? b) with false by lia] end; cbn [andb].
Ltac pick := unfold digit; cbn [take app]; ranges; reflexivity.
Lemma pick_year y r : 0 <= y <= 9999 -> exists l cs l', nth 0 directives [] = l ++ cs :: l' /\ take cs (four y ++ r) = Some (four y, r) /\ Forall (fun c => take c (four y ++ r) = None) l.
Proof.
  intros H. assert (0 <= y / 100 < 100 /\ 0 <= y mod 100 < 100) as [H1 H2] by (Z.to_euclidean_division_equations; lia).
  apply digits in H1 as (A1 & A2 & _). apply digits in H2 as (B1 & B2 & _). eexists [], _, _. split; [reflexivity|]. split; [|constructor].
  unfold four, two, digit. cbn [app]. generalize dependent (y / 100 / 10). generalize dependent (y / 100 mod 10). generalize dependent (y mod 100 / 10). generalize dependent (y mod 100 mod 10).
  intros. pick.
Qed.
Ltac start x H := let A := fresh in let B := fresh in let C := fresh in
  destruct (digits x ltac:(lia)) as (A & B & C); unfold two, digit; set (a := x / 10) in *; set (b := x mod 10) in *; clearbody a b; cbn [nth directives].
Lemma pick_month x r : 1 <= x <= 12 -> exists l cs l', nth 1 directives [] = l ++ cs :: l' /\ take cs (two x ++ r) = Some (two x, r) /\ Forall (fun c => take c (two x ++ r) = None) l.
Proof.
  intros H. start x H. destruct (Z_le_gt_dec 10 x).
  - eexists [], _, _. split; [reflexivity|]. split; [pick|constructor].
  - eexists [_], _, _. split; [reflexivity|]. split; [pick|constructor; [pick|constructor]].
Qed.
Lemma pick_day x r : 1 <= x <= 31 -> exists l cs l', nth 2 directives [] = l ++ cs :: l' /\ take cs (two x ++ r) = Some (two x, r) /\ Forall (fun c => take c (two x ++ r) = None) l.
Proof.
  intros H. start x H. destruct (Z_le_gt_dec 30 x); [|destruct (Z_le_gt_dec 10 x)].
  - eexists [], _, _. split; [reflexivity|]. split; [pick|constructor].
  - eexists [_], _, _. split; [reflexivity|]. split; [pick|constructor; [pick|constructor]].
  - eexists [_; _], _, _. split; [reflexivity|]. split; [pick|constructor; [pick|constructor; [pick|constructor]]].
Qed.
Lemma pick_hour x r : 0 <= x < 24 -> exists l cs l', nth 3 directives [] = l ++ cs :: l' /\ take cs (two x ++ r) = Some (two x, r) /\ Forall (fun c => take c (two x ++ r) = None) l.
Proof.
  intros H. start x H. destruct (Z_le_gt_dec 20 x).
  - eexists [], _, _. split; [reflexivity|]. split; [pick|constructor].
  - eexists [_], _, _. split; [reflexivity|]. split; [pick|constructor; [pick|constructor]].
Qed.
Lemma pick_minute x r : 0 <= x < 60 -> exists l cs l', nth 4 directives [] = l ++ cs :: l' /\ take cs (two x ++ r) = Some (two x, r) /\ Forall (fun c => take c (two x ++ r) = None) l.
Proof. intros H. start x H. eexists [], _, _. split; [reflexivity|]. split; [pick|constructor]. Qed.
Lemma pick_second x r : 0 <= x < 60 -> exists l cs l', nth 5 directives [] = l ++ cs :: l' /\ take cs (two x ++ r) = Some (two x, r) /\ Forall (fun c => take c (two x ++ r) = None) l.
Proof. intros H. start x H. eexists [_], _, _. split; [reflexivity|]. split; [pick|constructor; [pick|constructor]]. Qed.
Lemma match_time y mo d h m s r : 0 <= y <= 9999 -> 1 <= mo <= 12 -> 1 <= d <= 31 -> 0 <= h < 24 -> 0 <= m < 60 -> 0 <= s < 60 ->
  match_fields directives (ftp_time (y, mo, d) h m s ++ r) = Some ([four y; two mo; two d; two h; two m; two s], r).
Proof.
  intros. unfold ftp_time. rewrite <- !app_assoc. unfold directives.
  apply match_first; [intros; now apply pick_year|]. apply match_first; [intros; now apply pick_month|]. apply match_first; [intros; now apply pick_day|].
  apply match_first; [intros; now apply pick_hour|]. apply match_first; [intros; now apply pick_minute|]. apply match_first; [intros; now apply pick_second|]. reflexivity.
Qed.
Lemma number_two x : 0 <= x < 100 -> number (two x) = x.
Proof.
  intros H. destruct (digits x H) as (A & B & C). unfold number, two. cbn [fold_left].
  replace (48 + x / 10 =? 32) with false by lia. replace (48 + x mod 10 =? 32) with false by lia. lia.
Qed.
Lemma number_four y : 0 <= y <= 9999 -> number (four y) = y.
Proof.
  intros H. assert (0 <= y / 100 < 100 /\ 0 <= y mod 100 < 100 /\ y = 100 * (y / 100) + y mod 100) as (H1 & H2 & E) by (Z.to_euclidean_division_equations; lia).
  pose proof (digits _ H1) as (A1 & A2 & A3). pose proof (digits _ H2) as (B1 & B2 & B3). unfold number, four, two. cbn [fold_left app].
  repeat match goal with |- context [?a =? 32] => replace (a =? 32) with false by lia end. lia.
Qed.
