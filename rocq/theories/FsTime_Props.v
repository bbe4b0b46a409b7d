(** C133: the modification times of remote files. *)
From Coq Require Import ZArith List Bool Lia.
From Verif Require Import PyBase FsTime_Model FsTime_Spec FsTime_Proofs.
Import ListNotations.
Local Open Scope Z_scope.

(** What an FTP server writes for an instant is read as that time of day in the local time zone, so that it is right where local time is UTC. *)
Theorem C133_ftp_local_partial :
  forall (zone : Z -> Z) t y mo d h m s, 1 <= y <= 9999 -> instant t (y, mo, d) h m s ->
  modification_time zone None (Some (Written (ftp_time (y, mo, d) h m s))) = Ok (t - zone t).
Proof.
  intros zone t y mo d h m s Y (n & N & H & M & S & ->). apply day_number_ord in N as [D E]. apply date_length in D as [Mo D].
  assert (d <= 31). { pose proof (last_exists y mo Mo) as L. destruct L as [(_ & L)|[(_ & L)|[(_ & _ & L)|(_ & _ & L)]]]; lia. }
  unfold modification_time, strptime. rewrite <- (app_nil_r (ftp_time (y, mo, d) h m s)), match_time by lia.
  rewrite number_four, !number_two by lia. cbn [f_year f_month f_day].
  replace (1 <=? y) with true by lia. replace (d <=? _) with true by lia. cbn [andb].
  unfold mktime, timegm. cbn [f_year f_month f_day f_hour f_minute f_second]. unfold ord in E. rewrite E. replace (n + 719163 - 719163) with n by lia. reflexivity.
Qed.
Print Assumptions C133_ftp_local_partial.
(** 2024-02-29 16:51:29 UTC, reached from the last day before 1970, which is reached from the epoch. *)
Example C133_case : instant (-1) (1969, 12, 31) 23 59 59 /\ ftp_time (2024, 2, 29) 16 51 29 = [50;48;50;52;48;50;50;57;49;54;53;49;50;57] /\
  modification_time (fun _ => 0) None (Some (Written (ftp_time (2024, 2, 29) 16 51 29))) = Ok 1709225489.
Proof.
  split; [|split; reflexivity]. exists (-1). split; [|lia]. apply (one_earlier 0 (1969, 12, 31) (1970, 1, 1)); [constructor| |apply (next_year 1969)].
  exists 31. split; [left; cbn; auto 10|lia].
Qed.

(** Everywhere else it is wrong by the offset of the local time zone. *)
Theorem C133_ftp_refuted :
  ~ (forall (zone : Z -> Z) t y mo d h m s, 1 <= y <= 9999 -> instant t (y, mo, d) h m s ->
     modification_time zone None (Some (Written (ftp_time (y, mo, d) h m s))) = Ok t).
Proof.
  intros A. assert (I : instant 0 (1970, 1, 1) 0 0 0) by (exists 0; split; [constructor|lia]).
  specialize (A (fun _ => 3600) 0 1970 1 1 0 0 0 ltac:(lia) I). rewrite (C133_ftp_local_partial (fun _ => 3600) 0) in A by (lia || exact I). discriminate.
Qed.
Print Assumptions C133_ftp_refuted.

(** A time with a fraction of a second, or with anything else behind it, is an error, whatever the time zone. *)
Theorem C133_fraction :
  forall (zone : Z -> Z) t y mo d h m s c rest, 1 <= y <= 9999 -> instant t (y, mo, d) h m s ->
  modification_time zone None (Some (Written (ftp_time (y, mo, d) h m s ++ c :: rest))) = Err ValueError.
Proof.
  intros zone t y mo d h m s c rest Y (n & N & H & M & S & ->). apply day_number_ord in N as [D E]. apply date_length in D as [Mo D].
  assert (d <= 31). { pose proof (last_exists y mo Mo) as L. destruct L as [(_ & L)|[(_ & L)|[(_ & _ & L)|(_ & _ & L)]]]; lia. }
  unfold modification_time, strptime. rewrite match_time by lia. reflexivity.
Qed.
Print Assumptions C133_fraction.

Example C133_fraction_case : modification_time (fun _ => 0) None (Some (Written (ftp_time (1970, 1, 1) 0 0 0 ++ [46; 53]))) = Err ValueError.
Proof. reflexivity. Qed.

(** So is a day that is not in the calendar. *)
Theorem C133_no_such_day :
  forall (zone : Z -> Z) y mo d h m s, 0 <= y <= 9999 -> 1 <= mo <= 12 -> 1 <= d <= 31 -> 0 <= h < 24 -> 0 <= m < 60 -> 0 <= s < 60 -> ~ is_date (y, mo, d) ->
  modification_time zone None (Some (Written (ftp_time (y, mo, d) h m s))) = Err ValueError.
Proof.
  intros zone y mo d h m s Y Mo D H M S N. rewrite date_length in N.
  unfold modification_time, strptime. rewrite <- (app_nil_r (ftp_time (y, mo, d) h m s)), match_time by lia.
  rewrite number_four, !number_two by lia. cbn [f_year f_month f_day]. replace (d <=? _) with false by lia. now rewrite andb_false_r.
Qed.
Print Assumptions C133_no_such_day.
Example C133_no_such_day_case : ~ is_date (2023, 2, 29).
Proof. rewrite date_length. change (nth _ _ 0) with 28. lia. Qed.

(** A datetime that knows its offset from UTC, as for SFTP, gives the instant itself, whatever the local time zone and whatever else is said. *)
Theorem C133_aware :
  forall (zone : Z -> Z) t y mo d h m s offset modify, instant (t + offset) (y, mo, d) h m s ->
  modification_time zone (Some (DateTime (mkFields y mo d h m s) (Some offset))) modify = Ok t.
Proof.
  intros zone t y mo d h m s offset modify (n & N & _ & _ & _ & T). apply day_number_ord in N as [_ E]. cbn [modification_time timestamp]. unfold timegm.
  cbn [f_year f_month f_day f_hour f_minute f_second]. unfold ord in E. rewrite E. f_equal. lia.
Qed.
Print Assumptions C133_aware.
Example C133_aware_case : instant (-3600 + 3600) (1970, 1, 1) 0 0 0 /\
  modification_time (fun _ => 7200) (Some (DateTime (mkFields 1970 1 1 0 0 0) (Some 3600))) (Some Other) = Ok (-3600).
Proof. split; [exists 0; split; [constructor|lia]|reflexivity]. Qed.

(** A number is taken as it is; it goes before a text; without either the time is 0. *)
Theorem C133_number :
  forall (zone : Z -> Z) t modify, modification_time zone (Some (Number t)) modify = Ok t /\
  modification_time zone None None = Ok 0 /\ modification_time zone None (Some Other) = Ok 0.
Proof. intros. repeat split. Qed.
Print Assumptions C133_number.
