(** C134, continued: the times of a mounted ZIP archive. *)
From Coq Require Import Ascii String.
From Verif Require Import PyBase PyDict PyStr Path_Model Path_Spec FileInfo Index_Model Index_Spec Tar_Model Zip_Model Zip_Spec Zip_Props
  FsTime_Spec DosTime_Model DosTime_Spec DosTime_Props ZipTime_Model.
Local Open Scope Z_scope.

(** An entry as it is stored, and as it is meant: with an instant for its date and time. *)
Definition read_as (w : raw) (i : zinfo) : Prop :=
  z_name i = w_name w /\ z_external i = w_external w /\ z_header i = w_header w /\ z_size i = w_size w /\ z_data i = w_data w /\ stores (w_date w, w_time w) (z_mtime i).

Lemma with_mtimes_read l infolist : Forall2 read_as l infolist -> with_mtimes l = Ok infolist.
Proof.
  induction 1 as [|w i l infolist (E1 & E2 & E3 & E4 & E5 & S) _ IH]; [reflexivity|]. cbn [with_mtimes]. unfold with_mtime.
  rewrite (C134_zip_time _ _ _ S), IH, <- E1, <- E2, <- E3, <- E4, <- E5. now destruct i.
Qed.

(** Stat on the newest entry at a location gives the instant it stores, whatever the order of rows in the database. *)
Theorem C134_shown :
  forall transform l infolist, Forall2 read_as l infolist -> own_headers infolist ->
  exists rows, zip_mount transform l = Ok rows /\
    forall now uid gid sh loc i, any_order sh -> Forall proper_name loc -> loc <> [] -> newest_entry transform infolist loc i ->
    is_folder i /\ ~ is_link i \/ nothing_below transform infolist loc ->
    exists f, lookup now uid gid sh rows (written loc) 0 = Some f /\ fi_mtime f = z_mtime i /\ fi_size f = z_size i.
Proof.
  intros transform l infolist R O. unfold zip_mount. rewrite (with_mtimes_read _ _ R). eexists. split; [reflexivity|].
  intros now uid gid sh loc i Sh P N Ne B. destruct (C74_lookup_and_open transform infolist now uid gid sh loc i Sh O P N Ne B) as (f & L & _ & S & M & _). eauto.
Qed.
Print Assumptions C134_shown.
Example C134_shown_case : Forall2 read_as [mkRaw $"a" 0 7 3 22621 34413 $"abc"] [mkZ $"a" 0 7 3 1709225486 $"abc"] /\
  own_headers [mkZ $"a" 0 7 3 1709225486 $"abc"] /\ newest_entry (fun s => s) [mkZ $"a" 0 7 3 1709225486 $"abc"] [$"a"] (mkZ $"a" 0 7 3 1709225486 $"abc") /\
  nothing_below (fun s => s) [mkZ $"a" 0 7 3 1709225486 $"abc"] [$"a"].
Proof.
  split; [constructor; [|constructor]; repeat (split; [reflexivity|]); apply C134_case|]. split; [repeat constructor; intros []|].
  split; [split; [now left|]; split; [reflexivity|]; intros j [<-|[]] _; lia|].
  intros j rest [<-|[]] R Q. cbn in Q. injection Q as Q. congruence.
Qed.

(** An archive with an entry whose day is not in the calendar is not mounted at all. *)
Theorem C134_not_mounted :
  forall transform before w after y mo d, 1980 <= y <= 2107 -> 0 <= mo < 16 -> 0 <= d < 32 -> ~ is_date (y, mo, d) -> w_date w = dos_date (y, mo, d) ->
  exists e, zip_mount transform (before ++ w :: after) = Err e.
Proof.
  intros transform before w after y mo d Y Mo D N E. unfold zip_mount.
  enough (exists e, with_mtimes (before ++ w :: after) = Err e) as (e & ->) by eauto.
  induction before as [|v l (e & IH)]; cbn [app with_mtimes].
  - destruct (C134_no_date [] (w_date w, w_time w) [] y mo d (w_time w) Y Mo D N) as (e & H); [now rewrite E|]. cbn [app zip_mtimes] in H. unfold with_mtime.
    destruct (zip_mtime (w_date w) (w_time w)); [discriminate|eauto].
  - rewrite IH. destruct (with_mtime v); eauto.
Qed.
Print Assumptions C134_not_mounted.
Example C134_not_mounted_case : ~ is_date (1980, 0, 0) /\ dos_date (1980, 0, 0) = 0 /\ zip_mount (fun s => s) [mkRaw $"a" 0 7 3 0 0 $"abc"] = Err ValueError.
Proof. split; [intros (n & _ & H); lia|]. split; reflexivity. Qed.
