(** Property C74: an entry of a ZIP archive is found and opened through the index. *)
From Coq Require Import Ascii String Permutation.
From Verif Require Import PyBase PyDict PyStr Path_Model Path_Spec Path_Proofs FileInfo Index_Model Index_Spec Index_Proofs Tar_Model Tar_Proofs Member_Proofs Rar_Proofs
  Zip_Model Zip_Spec.
Local Open Scope Z_scope.

Lemma zip_row_owner transform i : r_uid (zip_row transform i) = 0 /\ r_gid (zip_row transform i) = 0.
Proof. unfold zip_row. destruct (split_last _). now destruct (_ =? _). Qed.
Lemma zip_row_fields transform i : let r := zip_row transform i in
  full_path r = written (zip_location transform i) /\ ~ In slash (r_name r) /\ r_offsetheader r = z_header i /\ r_size r = z_size i /\ r_mtime r = z_mtime i /\
  (is_link i -> r_linkname r = z_data i /\ is_lnk_mode (r_mode r) = true) /\
  (~ is_link i -> r_linkname r = [] /\ (is_folder i -> is_dir_mode (r_mode r) = true) /\ (~ is_folder i -> is_reg_mode (r_mode r) = true)) /\
  (unix_mode i mod 512 <> 0 -> r_mode r mod 512 = unix_mode i mod 512) /\
  (unix_mode i mod 512 = 0 -> is_folder i -> r_mode r mod 512 = 504) /\
  (unix_mode i mod 512 = 0 -> ~ is_folder i -> r_mode r mod 512 = 432).
Proof.
  unfold zip_row. rewrite normpath_written. change (denotes (transform (z_name i))) with (zip_location transform i).
  destruct (split_last_written (zip_location transform i) (denotes_proper _)) as (a & b & -> & E & N).
  assert (Hi : Z.shiftr (z_external i) 16 = unix_mode i) by (rewrite Z.shiftr_div_pow2 by lia; reflexivity). rewrite Hi.
  assert (Lo : Z.land (unix_mode i) 511 = unix_mode i mod 512) by (change 511 with (Z.ones 9); now rewrite Z.land_ones by lia). rewrite Lo.
  assert (D : forall P Q : Prop, zip_is_dir i = true /\ is_folder i \/ zip_is_dir i = false /\ ~ is_folder i).
  { intros _ _. unfold zip_is_dir. destruct (ends_with $"/" (z_name i)) eqn:X; [left|right]; (split; [reflexivity|]).
    - now apply ends_with_spec in X.
    - intros F. apply (ends_with_spec $"/") in F. congruence. }
  pose proof (Z.mod_pos_bound (unix_mode i) 512 eq_refl) as B. set (m := unix_mode i mod 512) in *.
  set (mode := if m =? 0 then if zip_is_dir i then 504 else 432 else m).
  assert (M : 0 <= mode < 512) by (unfold mode; destruct (m =? 0); [destruct (zip_is_dir i); lia|lia]).
  assert (T : forall t, Z.land (Z.lor mode t) S_IFMT = Z.land t S_IFMT).
  { intros t. rewrite Z.land_lor_distr_l, low_land_high by lia. apply Z.lor_0_l. }
  assert (R : forall t, Z.land t 511 = 0 -> Z.lor mode t mod 512 = mode).
  { intros t Z. change 512 with (2 ^ 9). rewrite <- Z.land_ones by lia. change (Z.ones 9) with 511. rewrite Z.land_lor_distr_l, Z, Z.lor_0_r.
    change 511 with (Z.ones 9). rewrite Z.land_ones by lia. apply Z.mod_small. exact M. }
  change (Z.land (unix_mode i) S_IFMT =? S_IFLNK) with (Z.land (unix_mode i) 61440 =? 40960).
  unfold is_link. destruct (Z.eqb_spec (Z.land (unix_mode i) 61440) 40960) as [L|L]; cbn [r_path r_name r_offsetheader r_size r_mtime r_linkname r_mode full_path];
    (split; [exact E|]; split; [exact N|]; split; [reflexivity|]; split; [reflexivity|]; split; [reflexivity|]).
  - split; [intros _; split; [reflexivity|]; unfold is_lnk_mode; now rewrite T|]. split; [congruence|].
    rewrite (R S_IFLNK eq_refl). unfold mode. destruct (D True True) as [(-> & F)|(-> & F)]; destruct (Z.eqb_spec m 0) as [Z|Z]; repeat split; intros; tauto || congruence.
  - split; [congruence|]. split.
    + intros _. split; [reflexivity|]. unfold is_dir_mode, is_reg_mode. rewrite !T. destruct (D True True) as [(-> & F)|(-> & F)]; split; intros; (reflexivity || contradiction).
    + assert (R' : Z.lor mode (if zip_is_dir i then S_IFDIR else S_IFREG) mod 512 = mode) by (apply R; now destruct (zip_is_dir i)). rewrite R'. unfold mode.
      destruct (D True True) as [(-> & F)|(-> & F)]; destruct (Z.eqb_spec m 0) as [Z|Z]; repeat split; intros; tauto || congruence.
Qed.

Lemma files_header infolist i : own_headers infolist -> In i infolist -> dget Z.eqb (zip_files infolist) (z_header i) = Some i.
Proof.
  unfold own_headers, zip_files. induction infolist as [|x l IH] using rev_ind; [intros _ []|]. rewrite !map_app. cbn [map]. intros N I.
  rewrite (dget_dict_of_snoc Z.eqb Z.eqb_spec). apply NoDup_remove in N. rewrite app_nil_r in N. destruct N as (N1 & N2).
  apply in_app_or in I as [I|[->|[]]]; [|now rewrite Z.eqb_refl]. destruct (Z.eqb_spec (z_header i) (z_header x)) as [Q|Q]; [|now apply IH].
  exfalso. apply N2. rewrite <- Q. now apply in_map.
Qed.

(** The newest entry at a location is found there, with its attributes, and opening it opens that entry.  [transform] is the user's
    --transform; the order in which the database returns rows is arbitrary. *)
Theorem C74_lookup_and_open :
  forall transform infolist now uid gid sh loc i, any_order sh -> own_headers infolist ->
  Forall proper_name loc -> loc <> [] -> newest_entry transform infolist loc i ->
  is_folder i /\ ~ is_link i \/ nothing_below transform infolist loc ->
  exists f, lookup now uid gid sh (zip_index transform infolist) (written loc) 0 = Some f /\
    zip_open (zip_files infolist) f = Ok i /\ fi_size f = z_size i /\ fi_mtime f = z_mtime i /\ fi_uid f = 0 /\ fi_gid f = 0 /\
    (is_link i -> is_lnk_mode (fi_mode f) = true /\ fi_linkname f = z_data i) /\
    (~ is_link i -> fi_linkname f = [] /\ (is_folder i -> is_dir_mode (fi_mode f) = true) /\ (~ is_folder i -> is_reg_mode (fi_mode f) = true)) /\
    (unix_mode i mod 512 <> 0 -> fi_mode f mod 512 = unix_mode i mod 512) /\
    (unix_mode i mod 512 = 0 -> is_folder i -> fi_mode f mod 512 = 504) /\
    (unix_mode i mod 512 = 0 -> ~ is_folder i -> fi_mode f mod 512 = 432).
Proof.
  intros transform infolist now uid gid sh loc i Hsh Own P N (I & L & Nw) Hh.
  destruct (zip_row_fields transform i) as (F1 & F2 & F3 & F4 & F5 & F6 & F7 & F8). exists (row_to_file_info (zip_row transform i)). split.
  - destruct (in_split i infolist I) as (before & after & E). unfold zip_index. rewrite E.
    apply (member_lookup (zip_row transform) (zip_location transform)); auto.
    + intros e. apply (zip_row_fields transform e).
    + intros e. apply (zip_row_fields transform e).
    + intros e. apply denotes_proper.
    + intros j J Lj. destruct (zip_row_fields transform j) as (_ & _ & -> & _). rewrite F3. apply Nw; [rewrite E; apply in_or_app; now left|exact Lj].
    + intros j J Lj. destruct (zip_row_fields transform j) as (_ & _ & -> & _). rewrite F3.
      assert (z_header j <= z_header i) by (apply Nw; [rewrite E; apply in_or_app; right; now right|exact Lj]).
      enough (z_header j <> z_header i) by lia. intros Q. unfold own_headers in Own. rewrite E, map_app in Own. cbn [map] in Own. apply NoDup_remove_2 in Own.
      apply Own. apply in_or_app. right. rewrite <- Q. now apply in_map.
    + destruct Hh as [(D & NL)|Hh]; [left; now apply F7|right]. intros j rest J R. rewrite <- E in J. now apply Hh.
  - destruct (zip_row_owner transform i) as (Ou & Og). unfold zip_open. cbn [row_to_file_info fi_uid fi_gid fi_userdata u_offsetheader fi_size fi_mtime fi_mode fi_linkname]. rewrite F3, files_header by assumption.
    repeat (split; [assumption || reflexivity || tauto|]). tauto.
Qed.
Print Assumptions C74_lookup_and_open.

Definition zex := [mkZ $"d/" (16877 * 65536) 0 0 1 []; mkZ $"d/a" (33188 * 65536) 40 3 2 $"abc"; mkZ $"d/l" (41471 * 65536) 90 1 3 $"a"; mkZ $"d//a" 0 200 2 4 $"xy"; mkZ $"w" 0 150 1 1 $"q"].
Example C74_nontrivial : own_headers zex /\ newest_entry (fun s => s) zex [$"d"; $"a"] (mkZ $"d//a" 0 200 2 4 $"xy") /\
  newest_entry (fun s => s) zex [$"d"; $"l"] (mkZ $"d/l" (41471 * 65536) 90 1 3 $"a") /\ is_link (mkZ $"d/l" (41471 * 65536) 90 1 3 $"a") /\
  nothing_below (fun s => s) zex [$"d"; $"a"].
Proof.
  split; [unfold own_headers; cbn; repeat constructor; cbn; intuition discriminate|].
  split; [split; [cbn; tauto|]; split; [reflexivity|]; intros j [<-|[<-|[<-|[<-|[<-|[]]]]]]; cbn; intros; lia || discriminate|].
  split; [split; [cbn; tauto|]; split; [reflexivity|]; intros j [<-|[<-|[<-|[<-|[<-|[]]]]]]; cbn; intros; lia || discriminate|].
  split; [reflexivity|].
  intros j rest [<-|[<-|[<-|[<-|[<-|[]]]]]] R Q; cbn in Q; (discriminate || injection Q as Q; congruence).
Qed.

(** Two entries that share a local header (as deduplicating tools write them): one of them is opened as the other. *)
Theorem C74_shared_header_refuted :
  exists infolist i j, In i infolist /\ In j infolist /\ i <> j /\ newest_entry (fun s => s) infolist [$"a"] i /\ nothing_below (fun s => s) infolist [$"a"] /\
  forall now uid gid, exists f, lookup now uid gid (fun l => l) (zip_index (fun s => s) infolist) $"/a" 0 = Some f /\ fi_size f = z_size i /\
    zip_open (zip_files infolist) f = Ok j.
Proof.
  exists [mkZ $"a" 0 7 3 1 $"abc"; mkZ $"b" 0 7 3 1 $"abc"], (mkZ $"a" 0 7 3 1 $"abc"), (mkZ $"b" 0 7 3 1 $"abc").
  split; [now left|]. split; [right; now left|]. split; [discriminate|].
  split; [split; [now left|]; split; [reflexivity|]; intros j [<-|[<-|[]]]; cbn; intros; lia || discriminate|].
  split; [intros j rest [<-|[<-|[]]] R Q; cbn in Q; [injection Q as Q; congruence|discriminate]|].
  intros. eexists. repeat split.
Qed.
Print Assumptions C74_shared_header_refuted.
