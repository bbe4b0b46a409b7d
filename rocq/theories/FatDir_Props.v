(** C80: the directories of a FAT volume are read back: names, sizes, times, clusters. *)
From Verif Require Import PyBase Fat_Model Fat_Spec FatDir_Model FatDir_Spec Fat_Proofs FatDir_Proofs.
Local Open Scope Z_scope.

(** Every directory on the volume, in clusters or in the area of the root directory, is read: its entries, in their order, and no others. *)
Theorem C80_directory_partial : forall oem is_space, is_space (oem 32) = true -> forall image b, readable_volume image b ->
  exists v table, open_volume image = Ok (v, table) /\ v_type v = type_of b /\
    (forall first items, holds_dir image b first items -> Forall valid_item items ->
      exists k, forall fuel, (k <= fuel)%nat -> exists ds, parse_in_chain image v table fuel (Some first) [] [] = Ok ds /\ Forall2 (shows oem is_space) (present items) ds) /\
    (forall items, holds_root image b items -> Forall valid_item items ->
      exists k, forall fuel, (k <= fuel)%nat -> exists ds, root_entries image v table fuel = Ok ds /\ Forall2 (shows oem is_space) (present items) ds).
Proof.
  intros oem is_space B image b R. destruct (open_readable image b R) as (v & table & n & O & T & Bc & Ad & Et & Ln & Rs & Re & Rc). exists v, table. split; [exact O|]. split; [exact T|]. split.
  - intros first items H Vi. destruct (read_dir image b v table n first items R T Bc Ad Et Ln H Vi) as (k & P). exists k. intros fuel Fu. eexists. split; [now apply P|]. now apply all_show.
  - intros items H Vi. destruct (read_root image b v table n items R T Bc Ad Et Ln Rs Re Rc H Vi) as (k & P). exists k. intros fuel Fu. eexists. split; [now apply P|]. now apply all_show.
Qed.
Print Assumptions C80_directory_partial.

(** Times: what was stored, to two seconds. *)
Theorem C80_times : forall d y mo da h mi s, valid_date y mo da -> valid_time h mi s -> d_wrtdate d = date_field y mo da -> d_wrttime d = time_field h mi s ->
  get_mtime d = ((y, mo, da), (h, mi, s - s mod 2)).
Proof.
  intros d y mo da h mi s Vd Vt Ed Et. unfold get_mtime. rewrite Ed, Et, date_back, time_back by assumption. pose proof (Z.div_mod s 2 ltac:(lia)). replace (s - s mod 2) with (s / 2 * 2) by lia. reflexivity.
Qed.
Print Assumptions C80_times.
(** Fields that are no date or no time: the date is then the first one of the format, and the time is midnight. *)
Theorem C80_invalid_times : forall d y mo da h mi s2, 0 <= y < 128 -> 0 <= mo < 16 -> 0 <= da < 32 -> 0 <= h < 32 -> 0 <= mi < 64 -> 0 <= s2 < 32 ->
  d_wrtdate d = y * 512 + mo * 32 + da -> d_wrttime d = h * 2048 + mi * 32 + s2 ->
  (~ valid_date (1980 + y) mo da -> fst (get_mtime d) = (1980, 1, 1)) /\ (~ valid_time h mi (2 * s2) -> snd (get_mtime d) = (0, 0, 0)).
Proof.
  intros d y m da h mi q Hy Hm Hd Hh Hi Hq Ed Et. unfold get_mtime. rewrite Ed, Et. cbn [fst snd]. split; intros N.
  - unfold deserialize_date. change (Z.shiftl 1 5 - 1) with (Z.ones 5). change (Z.shiftl 1 4 - 1) with (Z.ones 4). change (Z.shiftl 1 7 - 1) with (Z.ones 7).
    rewrite !Z.land_ones, !Z.shiftr_div_pow2 by lia. change (2 ^ 5) with 32. change (2 ^ 4) with 16. change (2 ^ 7) with 128. change (2 ^ 9) with 512.
    assert (E1 : (y * 512 + m * 32 + da) mod 32 = da) by (symmetry; apply (Z.mod_unique _ 32 (y * 16 + m)); lia).
    assert (E2 : (y * 512 + m * 32 + da) / 32 = y * 16 + m) by (symmetry; apply (Z.div_unique _ 32 _ da); lia).
    assert (E3 : (y * 512 + m * 32 + da) / 512 = y) by (symmetry; apply (Z.div_unique _ 512 _ (m * 32 + da)); lia).
    rewrite E1, E2, E3. assert (E4 : (y * 16 + m) mod 16 = m) by (symmetry; apply (Z.mod_unique _ 16 y); lia). rewrite E4, (Z.mod_small y) by lia.
    destruct (_ && _) eqn:X; [|reflexivity]. exfalso. apply N. rewrite !andb_true_iff, !Z.leb_le in X. unfold valid_date.
    replace (y + 1980) with (1980 + y) in X by lia. 
    assert (Dl : days_in_month (1980 + y) m = month_length (1980 + y) m).
    { assert (m = 1 \/ m = 2 \/ m = 3 \/ m = 4 \/ m = 5 \/ m = 6 \/ m = 7 \/ m = 8 \/ m = 9 \/ m = 10 \/ m = 11 \/ m = 12) as H by lia.
      repeat (destruct H as [->|H]; [reflexivity|]). subst m. reflexivity. }
    rewrite <- Dl. lia.
  - unfold deserialize_time. change (Z.shiftl 1 5 - 1) with (Z.ones 5). change (Z.shiftl 1 6 - 1) with (Z.ones 6).
    rewrite !Z.land_ones, !Z.shiftr_div_pow2 by lia. change (2 ^ 5) with 32. change (2 ^ 6) with 64. change (2 ^ 11) with 2048.
    assert (E1 : (h * 2048 + mi * 32 + q) mod 32 = q) by (symmetry; apply (Z.mod_unique _ 32 (h * 64 + mi)); lia).
    assert (E2 : (h * 2048 + mi * 32 + q) / 32 = h * 64 + mi) by (symmetry; apply (Z.div_unique _ 32 _ q); lia).
    assert (E3 : (h * 2048 + mi * 32 + q) / 2048 = h) by (symmetry; apply (Z.div_unique _ 2048 _ (mi * 32 + q)); lia).
    rewrite E1, E2, E3. assert (E4 : (h * 64 + mi) mod 64 = mi) by (symmetry; apply (Z.mod_unique _ 64 h); lia). rewrite E4, (Z.mod_small h) by lia.
    destruct (_ && _) eqn:X; [|reflexivity]. exfalso. apply N. rewrite !andb_true_iff, !Z.leb_le in X. unfold valid_time. lia.
Qed.
Print Assumptions C80_invalid_times.
Example C80_invalid_times_nontrivial : ~ valid_date (1980 + 43) 2 29 /\ ~ valid_time 24 0 (2 * 5).
Proof. split; [intros (_ & _ & _ & H); apply H; reflexivity|intros ((_ & H) & _); apply H; reflexivity]. Qed.
Example C80_times_nontrivial : valid_date 2024 2 29 /\ valid_time 23 59 59 /\ 0 <= date_field 2024 2 29 < 65536 /\ 0 <= time_field 23 59 59 < 65536.
Proof. repeat split; vm_compute; congruence. Qed.

(** ** A volume with directories

    Eight sectors: boot sector, table, root directory and five clusters.  The root directory has a label, a directory with a long name and a file with a short name. *)
Definition boot_small : boot := mkBoot 512 1 1 1 16 8 0 1 0 240.
Definition pad (n : nat) (l : list Z) : list Z := l ++ repeat 0 (n - length l).
Definition sector_boot : list Z :=
  pad 510 [235; 60; 144; 0; 0; 0; 0; 0; 0; 0; 0; 0; 2; 1; 1; 0; 1; 16; 0; 8; 0; 240; 1; 0; 0; 0; 0; 0; 0; 0; 0; 0; 0; 0; 0; 0] ++ [85; 170].
(** clusters 2 and 3 are the directory, 4 the file in the directory, 5 the file in the root directory *)
Definition sector_fat : list Z := pad 512 [240; 255; 255; 3; 240; 255; 255; 255; 255].
(** "DISK", a label *)
Definition entry_label : entry := mkEntry [68; 73; 83; 75] [] [] 8 (repeat 0 8) 0 (date_field 2024 2 29) 0 0.
(** "Grüße und 𝄞" with the short name "GR~1" *)
Definition name_dir : list Z := [71; 114; 252; 223; 101; 32; 117; 110; 100; 32; 119736].
Definition entry_dir : entry := mkEntry [71; 82; 126; 49] [] [utf16 name_dir ++ [0]] 16 (repeat 0 8) (time_field 12 30 8) (date_field 2024 2 29) 2 0.
(** "A.TXT" *)
Definition entry_a : entry := mkEntry [65] [84; 88; 84] [] 32 (repeat 0 8) (time_field 23 59 59) (date_field 1999 12 31) 5 3.
Definition root_items : list item := [Present entry_label; Deleted (repeat 7 31); Present entry_dir; Present entry_a].
(** in the directory: "." and "..", thirteen deleted slots and "the second of files" in two parts, so that the name crosses the border of the clusters *)
Definition name_file : list Z := [116; 104; 101; 32; 115; 101; 99; 111; 110; 100; 32; 111; 102; 32; 102; 105; 108; 101; 115].
Definition entry_dot : entry := mkEntry [46] [] [] 16 (repeat 0 8) 0 (date_field 2024 2 29) 2 0.
Definition entry_dotdot : entry := mkEntry [46; 46] [] [] 16 (repeat 0 8) 0 (date_field 2024 2 29) 0 0.
Definition entry_file : entry := mkEntry [84; 72; 69; 83; 69; 67; 126; 49] [] [firstn 13 name_file; skipn 13 name_file ++ 0 :: repeat 65535 6] 32 (repeat 0 8) 0 (date_field 2024 2 29) 4 5.
Definition dir_items : list item := Present entry_dot :: Present entry_dotdot :: repeat (Deleted (repeat 9 31)) 13 ++ [Present entry_file].
Definition content_file : list Z := [104; 101; 108; 108; 111].
Definition content_a : list Z := [97; 98; 99].
Definition image_small : list Z := sector_boot ++ sector_fat ++ pad 512 (items_bytes root_items) ++ pad 1024 (items_bytes dir_items) ++ pad 512 content_file ++ pad 512 content_a ++ repeat 0 512.

Definition all_bytes (l : list Z) : bool := forallb (fun b => (0 <=? b) && (b <? 256)) l.
Lemma all_bytes_are l : all_bytes l = true -> are_bytes l.
Proof. intros H. unfold all_bytes in H. rewrite forallb_forall in H. apply Forall_forall. intros x I. apply H in I. lia. Qed.
Example small_readable : readable_volume image_small boot_small /\ type_of boot_small = FAT12.
Proof.
  split; [|reflexivity]. split; [|split; [|split; [|split]]].
  - split; [vm_compute; congruence|]. split; [apply all_bytes_are; vm_compute; reflexivity|]. repeat (split; [vm_compute; reflexivity|]). vm_compute; reflexivity.
  - split; [cbn; auto|]. split; [cbn; auto|]. split; [cbn; lia|]. split; [cbn; lia|]. split; [cbn; auto|]. split; [exists 1; reflexivity|]. split; left; cbn; lia.
  - split; [discriminate|]. intros H. vm_compute in H. discriminate.
  - intros _. reflexivity.
  - vm_compute. congruence.
Qed.
Lemma chars_ok l : forallb (fun c => ((0 <? c) && (c <? 55296)) || ((57343 <? c) && (c <? 65535)) || ((65536 <=? c) && (c <=? 1114111))) l = true -> Forall is_char l.
Proof. intros H. rewrite forallb_forall in H. apply Forall_forall. intros x I. apply H in I. unfold is_char. lia. Qed.
Lemma names_in_parts : in_parts name_dir (e_parts entry_dir) /\ in_parts name_file (e_parts entry_file).
Proof.
  split.
  - split; [discriminate|]. split; [apply chars_ok; reflexivity|]. split; [repeat constructor|]. split; [cbn; lia|]. right. exists 0%nat. reflexivity.
  - split; [discriminate|]. split; [apply chars_ok; reflexivity|]. split; [repeat constructor|]. split; [cbn; lia|]. right. exists 6%nat. reflexivity.
Qed.
Ltac entry_ok := unfold valid_item, valid_entry; cbn [e_base e_ext e_parts e_attr e_other e_time e_date e_cluster e_size entry_label entry_dir entry_a entry_dot entry_dotdot entry_file];
  split; [cbn; lia|]; split; [cbn; lia|]; split; [apply all_bytes_are; reflexivity|]; split; [apply all_bytes_are; reflexivity|]; split; [discriminate|]; split; [discriminate|];
  split; [split; cbn; lia|]; split; [discriminate|]; split; [reflexivity|]; split; [apply all_bytes_are; reflexivity|];
  split; [vm_compute; split; congruence|]; split; [vm_compute; split; congruence|]; split; [split; lia|]; split; [split; lia|].
Example C80_nontrivial : holds_root image_small boot_small root_items /\ Forall valid_item root_items /\ present root_items = [entry_label; entry_dir; entry_a] /\
  holds_dir image_small boot_small 2 dir_items /\ Forall valid_item dir_items /\ present dir_items = [entry_dot; entry_dotdot; entry_file].
Proof.
  split; [|split; [|split; [reflexivity|split; [|split; [|reflexivity]]]]].
  - unfold holds_root. change (type_of boot_small) with FAT12. eexists. split; [vm_compute; reflexivity|]. split; [vm_compute; congruence|]. split; [right; eexists; reflexivity|reflexivity].
  - repeat apply Forall_cons; try apply Forall_nil.
    + entry_ok. now left.
    + reflexivity.
    + entry_ok. right. exists name_dir. apply names_in_parts.
    + entry_ok. now left.
  - exists [3]. eexists. split; [|split; [|split]].
    + change (type_of boot_small) with FAT12. apply linked_next with (d := 3).
      * vm_compute. split; [congruence|reflexivity].
      * vm_compute. split; congruence.
      * apply linked_last with (v := 4095); [vm_compute; split; [congruence|reflexivity]|left; vm_compute; split; congruence].
    + intros c I. assert (c = 2 \/ c = 3) as [->| ->] by (cbn in I; intuition). all: split; [lia|vm_compute; reflexivity].
    + vm_compute. reflexivity.
    + split; [reflexivity|]. right. split; [eexists; reflexivity|]. left. vm_compute. congruence.
  - apply Forall_cons; [entry_ok; now left|]. apply Forall_cons; [entry_ok; now left|]. apply Forall_app. split; [apply Forall_forall; intros x I; apply repeat_spec in I; subst x; reflexivity|].
    apply Forall_cons; [|constructor]. entry_ok. right. exists name_file. apply names_in_parts.
Qed.

(** ** What does not hold

    The zero byte ends a directory.  The driver takes it as the end of the cluster only: what an earlier use of the clusters behind it has left over comes up. *)
Definition stale_items : list item := [Present entry_dot; Present entry_dotdot].
Definition image_stale : list Z := sector_boot ++ sector_fat ++ repeat 0 512 ++ pad 512 (items_bytes stale_items) ++ pad 512 (items_bytes [Present entry_a]) ++ repeat 0 1536.
Theorem C80_end_of_directory_refuted : exists image b first items others rest, readable_volume image b /\ Forall valid_item items /\
  linked (type_of b) (disk_table image b) (first :: others) /\ concat (map (cluster_bytes image b) (first :: others)) = items_bytes items ++ 0 :: rest /\
  exists v table, open_volume image = Ok (v, table) /\
    exists ds d, parse_in_chain image v table 10 (Some first) [] [] = Ok ds /\ In d ds /\ ~ In (d_name d) (map short_field (present items)).
Proof.
  exists image_stale, boot_small, 2, stale_items, [3]. eexists. split; [|split; [|split; [|split; [vm_compute; reflexivity|]]]].
  - split; [|split; [|split; [|split]]].
    + split; [vm_compute; congruence|]. split; [apply all_bytes_are; vm_compute; reflexivity|]. repeat (split; [vm_compute; reflexivity|]). vm_compute; reflexivity.
    + apply small_readable.
    + apply small_readable.
    + apply small_readable.
    + vm_compute. congruence.
  - apply Forall_cons; [entry_ok; now left|]. apply Forall_cons; [entry_ok; now left|constructor].
  - change (type_of boot_small) with FAT12. apply linked_next with (d := 3).
    + vm_compute. split; [congruence|reflexivity].
    + vm_compute. split; congruence.
    + apply linked_last with (v := 4095); [vm_compute; split; [congruence|reflexivity]|left; vm_compute; split; congruence].
  - eexists _, _. split; [vm_compute; reflexivity|]. eexists _, _. split; [vm_compute; reflexivity|]. split; [right; right; left; reflexivity|]. vm_compute. intros [H|[H|[]]]; discriminate.
Qed.
Print Assumptions C80_end_of_directory_refuted.

(** The slots of a long name whose entry was removed by a program that does not know long names are to be ignored.  They make the whole directory unreadable: *)
Theorem C80_orphaned_name_refuted : forall sum part e rest, length part = 13%nat -> length (e_parts e) = 1%nat -> valid_entry e ->
  parse_slots (part_slot sum 65 part :: entry_slots e ++ rest) [] [] = Err (OSErr 0).
Proof.
  intros sum part e rest L L1 V. destruct (e_parts e) as [|p [|q ps]] eqn:E; try discriminate L1.
  assert (Lp : length p = 13%nat) by (destruct V as (_ & _ & _ & _ & _ & _ & _ & _ & _ & _ & _ & _ & _ & _ & [H|(name & _ & _ & H & _)]); rewrite E in H; [discriminate|now apply Forall_inv in H]).
  unfold entry_slots. rewrite E. cbn [part_slots app parse_slots]. rewrite (parse_part _ 65 part) by (try exact L; lia).
  change (add_lfn_entry [] (mkLfn 65 15 sum 0 (unit_bytes part))) with (@Ok (list lfn_part) [mkLfn 65 15 sum 0 (unit_bytes part)]). cbv iota beta.
  change (1 + 64) with 65. rewrite (parse_part _ 65 p) by (try exact Lp; lia). reflexivity.
Qed.
Print Assumptions C80_orphaned_name_refuted.
Example C80_orphaned_nontrivial : valid_entry entry_dir /\ length (e_parts entry_dir) = 1%nat.
Proof. split; [entry_ok; right; exists name_dir; apply names_in_parts|reflexivity]. Qed.
