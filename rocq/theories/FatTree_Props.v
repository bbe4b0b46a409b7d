(** C81: the mounted tree is the tree of the FAT volume. *)
From Coq Require Import Permutation.
From Verif Require Import PyBase MemFile_Spec FileInfo Fat_Model Fat_Spec FatDir_Model FatDir_Spec Fat_Proofs FatDir_Proofs FatDir_Props FatTree_Model FatTree_Spec FatTree_Proofs.
Local Open Scope Z_scope.

Section Claims.
  (** the OEM character set, in which 32 is a blank; the time zone; the user *)
  Variable oem : Z -> Z.
  Variable is_space : Z -> bool.
  Hypothesis Blank : is_space (oem 32) = true.
  Variable timestamp : (Z * Z * Z) * (Z * Z * Z) -> Z.
  Variable uid gid : Z.
  Variable image : list Z.
  Variable b : boot.
  Hypothesis Volume : readable_volume image b.
  Variable v : volume.
  Variable table : list Z.
  Hypothesis Opened : open_volume image = Ok (v, table).
  Let lookup fuel path := fat_lookup oem is_space image v table fuel timestamp uid gid path.
  Let list_of fuel path := fat_list oem is_space image v table fuel path.
  Let exists_at fuel path := fat_exists oem is_space image v table fuel path.
  Let open_info fuel info := fat_open_path oem is_space image v table fuel info.
  (** "for all bounds from some bound on": chains are finite *)
  Let eventually (P : nat -> Prop) : Prop := exists k, forall fuel, (k <= fuel)%nat -> P fuel.

  Lemma facts : v_type v = type_of b /\ bytes_per_cluster_of v = cluster_size b /\ (forall c, cluster_address v c = cluster_start b c) /\
    (exists n, table = entries (type_of b) (fat_bytes image b) n /\ entries_in (type_of b) (fat_bytes image b) - 1 <= n) /\
    (forall items, holds_root image b items -> Forall valid_item items -> exists k, forall fuel, (k <= fuel)%nat -> root_entries image v table fuel = Ok (map D (present items))) /\
    (forall first items, holds_dir image b first items -> Forall valid_item items ->
      exists k, forall fuel, (k <= fuel)%nat -> parse_in_chain image v table fuel (Some first) [] [] = Ok (map D (present items))).
  Proof.
    destruct (open_readable image b Volume) as (v' & table' & n & O & T & Bc & Ad & Et & Ln & Rs & Re & Rc). rewrite Opened in O. injection O as <- <-.
    split; [exact T|]. split; [exact Bc|]. split; [exact Ad|]. split; [now exists n|]. split.
    - intros items H V. now apply (read_root image b v table n items).
    - intros first items H V. now apply (read_dir image b v table n first items).
  Qed.

  (** An entry is found by its path, with its size, kind and time; a file can be opened at its first cluster. *)
  Theorem C81_lookup : forall path names e, path_names path names -> entry_at oem is_space image b names e ->
    eventually (fun fuel => exists info, lookup fuel path = Ok (Some info) /\ exists_at fuel path = Ok true /\ fi_size info = e_size e /\ fi_linkname info = [] /\ fi_uid info = uid /\ fi_gid info = gid /\
      (is_folder e -> fi_mode info = 16384 + 511) /\ (~ is_folder e -> fi_mode info = 32768 + 511) /\
      (forall y mo da h mi s, valid_date y mo da -> valid_time h mi s -> e_date e = date_field y mo da -> e_time e = time_field h mi s -> fi_mtime info = timestamp ((y, mo, da), (h, mi, s - s mod 2))) /\
      (is_folder e -> open_info fuel info = Err (OSErr 21)) /\ (~ is_folder e -> open_info fuel info = Ok (e_cluster e, e_size e))).
  Proof.
    intros path names e Pn E. destruct facts as (_ & _ & _ & _ & Rd & Dd). destruct (entry_walk oem is_space Blank image v table b Rd Dd names e E) as (V & B & Vi & k & W).
    exists k. intros fuel Le. specialize (W fuel Le). assert (G : get_entry oem is_space image v table fuel path = Ok (Entry (D e))) by (unfold get_entry; now rewrite (split_names path names Pn)).
    eexists. unfold lookup, exists_at, open_info, fat_lookup, fat_exists, fat_open_path. rewrite G. split; [reflexivity|]. split; [reflexivity|]. cbn [info_of fi_size fi_linkname fi_uid fi_gid fi_mode fi_mtime fi_userdata rev app node_is_directory].
    rewrite G. split; [reflexivity|]. split; [reflexivity|]. split; [reflexivity|]. split; [reflexivity|]. pose proof (folder_bit e V) as Fb. split; [|split; [|split; [|split]]].
    - intros F. apply Fb in F. now rewrite F.
    - intros F. destruct (is_directory (D e)); [exfalso; apply F; now apply Fb|reflexivity].
    - intros y mo da h mi s Vd Vt Ed Et. f_equal. now apply C80_times.
    - intros F. apply Fb in F. now rewrite F.
    - intros F. destruct (is_directory (D e)); [exfalso; apply F; now apply Fb|]. apply (visible_bit oem is_space Blank e V B) in Vi. apply negb_true_iff, orb_false_iff in Vi as (-> & ->). cbn [orb]. now rewrite (cluster_D oem is_space Blank) by exact V.
  Qed.
  (** The root directory. *)
  Theorem C81_root : forall path, path_names path [] -> forall fuel, exists info, lookup fuel path = Ok (Some info) /\ exists_at fuel path = Ok true /\ fi_mode info = 16384 + 511 /\ fi_size info = 0.
  Proof.
    intros path Pn fuel. assert (G : get_entry oem is_space image v table fuel path = Ok Root) by (unfold get_entry; now rewrite (split_names path [] Pn)).
    eexists. unfold lookup, exists_at, fat_lookup, fat_exists. rewrite G. repeat split.
  Qed.
  (** Other paths are not found; [exists] says so or fails because a file is not a directory. *)
  Theorem C81_lookup_none : sound_tree oem is_space image b -> forall path names, path_names path names -> names <> [] -> (forall e, ~ entry_at oem is_space image b names e) ->
    eventually (fun fuel => lookup fuel path = Ok None /\ (exists_at fuel path = Ok false \/ exists_at fuel path = Err (OSErr 20))).
  Proof.
    intros S path names Pn N A. destruct facts as (_ & _ & _ & _ & Rd & Dd). destruct (walk_cases oem is_space Blank image v table b Rd Dd S names) as [X|[(e & X)|(k & x & X & W)]]; [contradiction|exfalso; now apply (A e)|].
    exists k. intros fuel Le. unfold lookup, exists_at, fat_exists, fat_lookup, get_entry. rewrite (split_names path names Pn), (W fuel Le). destruct X as [-> | ->]; (split; [reflexivity|auto]).
  Qed.
  (** A directory lists exactly its visible entries, each under a name by which it is found, and no name twice. *)
  Theorem C81_list_partial : forall path names items, path_names path names -> path <> [] -> Forall (fun n => n <> [46] /\ n <> [46; 46]) names -> folder_at oem is_space image b names items ->
    eventually (fun fuel => exists shown es, list_of fuel path = Ok (Some shown) /\ NoDup shown /\ Forall2 (shown_as oem) es shown /\ forall e, In e es <-> In e (present items) /\ visible oem e).
  Proof.
    intros path names items Pn N Nd F. destruct facts as (_ & _ & _ & _ & Rd & Dd). destruct (folder_walk oem is_space Blank image v table b Rd Dd names items F) as (G & k & n & Dn & W). exists k. intros fuel Le.
    destruct (W fuel Le) as (W1 & W2). pose proof G as (V & B & _). apply valid_present in V.
    destruct (shown_list oem is_space Blank (shown_dirs oem is_space items ++ shown_files oem is_space items)) as (ns & Fs & E).
    { rewrite Forall_forall in *. intros e I. apply (shown_in oem is_space Blank) in I as (I & _); auto. }
    { rewrite Forall_forall in *. intros e I. apply (shown_in oem is_space Blank) in I as (I & _); auto. }
    exists ns, (shown_dirs oem is_space items ++ shown_files oem is_space items). unfold list_of, fat_list, get_entry. rewrite (norm_names path names Pn N Nd), W1, (get_entries_of oem is_space image v table fuel n items W2).
    rewrite <- map_app, E. split; [reflexivity|]. split; [now apply (shown_nodup oem is_space Blank items)|]. split; [exact Fs|]. intros e. now apply (shown_in oem is_space Blank).
  Qed.
  (** What is not a directory is not listed. *)
  Theorem C81_list_none : forall path names, path_names path names -> path <> [] -> Forall (fun n => n <> [46] /\ n <> [46; 46]) names ->
    (exists e, entry_at oem is_space image b names e /\ ~ is_folder e) \/ (sound_tree oem is_space image b /\ names <> [] /\ forall e, ~ entry_at oem is_space image b names e) -> eventually (fun fuel => list_of fuel path = Ok None).
  Proof.
    intros path names Pn N Nd H. destruct facts as (_ & _ & _ & _ & Rd & Dd). destruct H as [(e & E & F)|(S & Nn & A)].
    - destruct (entry_walk oem is_space Blank image v table b Rd Dd names e E) as (V & B & Vi & k & W). exists k. intros fuel Le. unfold list_of, fat_list, get_entry. rewrite (norm_names path names Pn N Nd), (W fuel Le).
      unfold get_entries, entries_raw. cbn [node_is_directory]. destruct (is_directory (D e)) eqn:X; [exfalso; apply F; now apply (folder_bit e V)|reflexivity].
    - destruct (walk_cases oem is_space Blank image v table b Rd Dd S names) as [X|[(e & X)|(k & x & X & W)]]; [contradiction|exfalso; now apply (A e)|].
      exists k. intros fuel Le. unfold list_of, fat_list, get_entry. rewrite (norm_names path names Pn N Nd), (W fuel Le). destruct X as [-> | ->]; reflexivity.
  Qed.
  (** The content of a file, from its path to its bytes: it is as in memory, for seeks that do not go before the start (C78). *)
  Theorem C81_content_partial : forall path names e content, path_names path names -> entry_at oem is_space image b names e -> ~ is_folder e -> e_size e = Z.of_nat (length content) ->
    holds_file (cluster_bytes image b) (type_of b) (disk_table image b) (cluster_size b) (e_cluster e) content -> forall calls, capped_no_negative content 0 calls ->
    eventually (fun fuel => exists info first size, lookup fuel path = Ok (Some info) /\ open_info fuel info = Ok (first, size) /\
      fat_run (read_cluster_contents image v) (v_type v) table (bytes_per_cluster_of v) first size (fat_open first) calls = capped_run content 0 calls).
  Proof.
    intros path names e content Pn E F Sz H calls Nn. destruct (C81_lookup path names e Pn E) as (k & L). exists k. intros fuel Le. destruct (L fuel Le) as (info & Lo & _ & _ & _ & _ & _ & _ & _ & _ & _ & Op). clear L. specialize (Op F).
    exists info, (e_cluster e), (e_size e). split; [exact Lo|]. split; [exact Op|]. destruct facts as (T & Bc & Ad & (n & -> & Ln) & _). rewrite T, Bc, Sz. apply run_file; [| |exact Nn].
    - destruct Volume as (_ & (V1 & V2 & _) & _). unfold cluster_size. cbn in V1, V2. nia.
    - assert (Rc : forall c, read_cluster_contents image v c = cluster_bytes image b c) by (intros c; unfold read_cluster_contents; rewrite Ad, Bc; reflexivity).
      destruct H as [->|(rest & slack & Li & Fu & Dd)]; [now left|right]. exists rest, slack. split; [now apply (linked_more _ _ (entries_in (type_of b) (fat_bytes image b) - 1))|]. split.
      + intros c I. rewrite Rc. now apply Fu.
      + erewrite map_ext; [exact Dd|]. exact Rc.
  Qed.
End Claims.
Print Assumptions C81_lookup.
Print Assumptions C81_root.
Print Assumptions C81_lookup_none.
Print Assumptions C81_list_partial.
Print Assumptions C81_list_none.
Print Assumptions C81_content_partial.

(** ** The volume of C80 *)
Definition ascii_oem (b : Z) : Z := b.
Definition blank (c : Z) : bool := c =? 32.
(** "/Grüße und 𝄞/the second of files", "//GR~1//THESEC~1" and "/A.TXT" *)
Definition short_dir : list Z := [71; 82; 126; 49].
Definition short_file : list Z := [84; 72; 69; 83; 69; 67; 126; 49].
Definition name_a : list Z := [65; 46; 84; 88; 84].
Lemma no_blank_all e : forallb (fun c => negb (c =? 32)) (e_base e ++ e_ext e) = true -> no_blank_end ascii_oem blank e.
Proof.
  intros H. rewrite forallb_forall in H. split; intros l x E; (assert (I : In x (e_base e ++ e_ext e)) by (apply in_or_app; rewrite E; (left; apply in_or_app; right; now left) || (right; apply in_or_app; right; now left)));
  apply H in I; unfold blank, ascii_oem; now destruct (x =? 32).
Qed.
Lemma in_parts_empty n : ~ in_parts n [].
Proof. intros (N & F & _ & _ & H). destruct (utf16_last n N F) as (u & x & Eu & _). rewrite Eu in H. cbn [concat] in H. destruct H as [H|(k & H)]; destruct u; discriminate. Qed.
Lemma in_parts_once n m parts : in_parts n parts -> in_parts m parts -> n = m.
Proof. intros H H'. apply (name_of_parts n parts 0 1) in H. apply (name_of_parts m parts 0 1) in H'. congruence. Qed.
Lemma root_good : good_items ascii_oem blank root_items.
Proof.
  split; [apply C80_nontrivial|]. split; [repeat (apply Forall_cons; [apply no_blank_all; reflexivity|]); constructor|].
  intros pre e bt e' after name E V V' C C'. change (present root_items) with [entry_label; entry_dir; entry_a] in E.
  destruct pre as [|x pre]; [injection E as <- E; destruct V as (V & _); apply V; reflexivity|]. injection E as <- E. destruct pre as [|x pre].
  - injection E as <- E. destruct bt as [|y bt]; [|injection E as <- E; destruct bt; discriminate]. injection E as <- <-. destruct C' as [C'|C']; [now apply in_parts_empty in C'|]. destruct C as [C|C]; [|rewrite C in C'; discriminate].
    apply (in_parts_once _ name_dir) in C; [rewrite C' in C; discriminate|apply names_in_parts].
  - injection E as <- E. destruct pre as [|z pre]; [injection E as <- E; destruct bt; discriminate|]. injection E as <- E. destruct pre; discriminate.
Qed.
Lemma dir_good : good_items ascii_oem blank dir_items.
Proof.
  split; [apply C80_nontrivial|]. split; [repeat (apply Forall_cons; [apply no_blank_all; reflexivity|]); constructor|].
  intros pre e bt e' after name E V V' C C'. change (present dir_items) with [entry_dot; entry_dotdot; entry_file] in E.
  destruct pre as [|x pre]; [injection E as <- E; destruct V as (_ & V & _); apply V; reflexivity|]. injection E as <- E.
  destruct pre as [|x2 pre]; [injection E as <- E; destruct V as (_ & _ & V); apply V; reflexivity|]. injection E as <- E.
  destruct pre as [|x3 pre]; [injection E as <- E; destruct bt; discriminate|]. injection E as <- E. destruct pre; discriminate.
Qed.
Lemma dir_visible : visible ascii_oem entry_dir.
Proof. split; [discriminate|split; discriminate]. Qed.
Lemma small_root : folder_at ascii_oem blank image_small boot_small [] root_items.
Proof. apply folder_root; [apply C80_nontrivial|apply root_good]. Qed.
Lemma small_dir name : called ascii_oem entry_dir name -> folder_at ascii_oem blank image_small boot_small [name] dir_items.
Proof.
  intros C. apply (folder_below _ _ _ _ [] root_items entry_dir name dir_items); [apply small_root|right; now left|apply dir_visible|reflexivity|exact C|apply C80_nontrivial|apply dir_good].
Qed.
Example C81_nontrivial :
  path_names (47 :: name_dir ++ 47 :: name_file) [name_dir; name_file] /\ entry_at ascii_oem blank image_small boot_small [name_dir; name_file] entry_file /\
  path_names (47 :: 47 :: short_dir ++ 47 :: 47 :: short_file) [short_dir; short_file] /\ entry_at ascii_oem blank image_small boot_small [short_dir; short_file] entry_file /\
  entry_at ascii_oem blank image_small boot_small [name_a] entry_a /\ ~ is_folder entry_file /\
  holds_file (cluster_bytes image_small boot_small) (type_of boot_small) (disk_table image_small boot_small) (cluster_size boot_small) (e_cluster entry_file) content_file /\
  e_size entry_file = Z.of_nat (length content_file).
Proof.
  assert (Vf : visible ascii_oem entry_file) by (split; [discriminate|split; discriminate]).
  split; [|split; [|split; [|split; [|split; [|split; [|split]]]]]].
  - apply pn_slash, pn_name; [discriminate|cbn; intuition discriminate|]. apply pn_slash, pn_last; [discriminate|cbn; intuition discriminate].
  - exists [name_dir], name_file, dir_items. split; [reflexivity|]. split; [apply small_dir; left; apply names_in_parts|]. split; [right; right; now left|]. split; [exact Vf|left; apply names_in_parts].
  - apply pn_slash, pn_slash. apply (pn_name short_dir (47 :: short_file)); [discriminate|cbn; intuition discriminate|]. apply pn_slash, pn_slash, pn_last; [discriminate|cbn; intuition discriminate].
  - exists [short_dir], short_file, dir_items. split; [reflexivity|]. split; [apply small_dir; now right|]. split; [right; right; now left|]. split; [exact Vf|now right].
  - exists [], name_a, root_items. split; [reflexivity|]. split; [apply small_root|]. split; [right; right; now left|]. split; [split; [discriminate|split; discriminate]|now right].
  - discriminate.
  - right. exists []. eexists. split; [change (type_of boot_small) with FAT12; apply linked_last with (v := 4095); [vm_compute; split; [congruence|reflexivity]|left; vm_compute; split; congruence]|].
    split; [intros c [<-|[]]; vm_compute; reflexivity|]. vm_compute. reflexivity.
  - reflexivity.
Qed.
(** ** What does not hold *)
Definition small_volume : volume * list Z := match open_volume image_small with Ok r => r | Err _ => (mkVolume (parse_bpb [] false) FAT12 0 0 0 0, []) end.
Lemma small_opened : open_volume image_small = Ok small_volume.
Proof. vm_compute. reflexivity. Qed.
Example C81_sound_nontrivial : sound_tree ascii_oem blank image_small boot_small /\ forall e, ~ entry_at ascii_oem blank image_small boot_small [[120]] e.
Proof.
  assert (O : open_volume image_small = Ok (fst small_volume, snd small_volume)) by (vm_compute; reflexivity). assert (Bl : blank (ascii_oem 32) = true) by reflexivity.
  destruct (facts image_small boot_small (proj1 small_readable) _ _ O) as (_ & _ & _ & _ & Rd & Dd).
  assert (Eq1 : forall items, holds_root image_small boot_small items -> Forall valid_item items -> map D (present items) = map D [entry_label; entry_dir; entry_a]).
  { intros items H V. destruct (Rd items H V) as (k & P). destruct (Rd root_items (proj1 C80_nontrivial) (proj1 root_good)) as (k' & P'). specialize (P (Nat.max k k') ltac:(lia)). rewrite (P' (Nat.max k k') ltac:(lia)) in P. injection P as P. symmetry. exact P. }
  assert (Eq2 : forall items, holds_dir image_small boot_small 2 items -> Forall valid_item items -> map D (present items) = map D [entry_dot; entry_dotdot; entry_file]).
  { intros items H V. destruct (Dd 2 items H V) as (k & P). destruct (Dd 2 dir_items ltac:(apply C80_nontrivial) (proj1 dir_good)) as (k' & P'). specialize (P (Nat.max k k') ltac:(lia)). rewrite (P' (Nat.max k k') ltac:(lia)) in P. injection P as P. symmetry. exact P. }
  assert (Bits : forall items e, good_items ascii_oem blank items -> In e (present items) -> visible ascii_oem e -> is_folder e -> (map D (present items) = map D [entry_label; entry_dir; entry_a] \/ map D (present items) = map D [entry_dot; entry_dotdot; entry_file]) -> e_cluster e = 2).
  { intros items e G I Vi F M. pose proof G as (V & B & _). apply valid_present in V. rewrite Forall_forall in V, B. rewrite <- (cluster_D ascii_oem blank Bl e (V e I)).
    apply (visible_bit ascii_oem blank Bl e (V e I) (B e I)) in Vi. apply (folder_bit e (V e I)) in F. apply (in_map D) in I. set (d := D e) in *. clearbody d. destruct M as [M|M]; rewrite M in I; cbn [map] in I.
    - destruct I as [<-|[<-|[<-|[]]]]; try reflexivity; discriminate.
    - destruct I as [<-|[<-|[<-|[]]]]; discriminate. }
  assert (Inv : forall names items, folder_at ascii_oem blank image_small boot_small names items -> good_items ascii_oem blank items /\ (map D (present items) = map D [entry_label; entry_dir; entry_a] \/ map D (present items) = map D [entry_dot; entry_dotdot; entry_file])).
  { intros names items H. induction H as [items H G|names items e name items' F IH I Vi Fo C H G]; (split; [exact G|]); [left; apply Eq1; [exact H|apply G]|right]. apply Eq2; [|apply G]. destruct IH as (G0 & M). now rewrite <- (Bits items e G0 I Vi Fo M). }
  split; [split|].
  - exists root_items. apply small_root.
  - intros names items e F I Vi Fo. destruct (Inv names items F) as (G & M). exists dir_items. rewrite (Bits items e G I Vi Fo M). split; [apply C80_nontrivial|apply dir_good].
  - intros e (parents & name & items & E & F & I & Vi & C). assert (parents = [] /\ name = [120]) as (-> & ->) by (destruct parents as [|p [|q r]]; [injection E as <-; now split|discriminate|discriminate]).
    inversion F as [items0 H G E0|names items0 e0 n items1 F0 I0 V0 Fo0 C0 H0 G0 E0]; [subst items0|destruct names; discriminate]. pose proof G as (V & B & _). apply valid_present in V. rewrite Forall_forall in V, B.
    apply (matches_called ascii_oem blank Bl e [120] (V e I) (B e I)) in C. apply (in_map D) in I. rewrite (Eq1 items H (proj1 G)) in I. set (d := D e) in *. clearbody d. destruct I as [<-|[<-|[<-|[]]]]; destruct C as [C|C]; vm_compute in C; discriminate.
Qed.

(** [exists] fails with an error instead of answering for a path below a file: "/A.TXT/x". *)
Theorem C81_exists_refuted : exists image v table path, open_volume image = Ok (v, table) /\ forall fuel, fat_exists ascii_oem blank image v table fuel path = Err (OSErr 20) /\
  forall timestamp uid gid, fat_lookup ascii_oem blank image v table fuel timestamp uid gid path = Ok None.
Proof.
  exists image_small, (fst small_volume), (snd small_volume), (47 :: name_a ++ [47; 120]). split; [rewrite small_opened; now destruct small_volume|]. intros fuel.
  assert (G : get_entry ascii_oem blank image_small (fst small_volume) (snd small_volume) fuel (47 :: name_a ++ [47; 120]) = Err (OSErr 20)) by (vm_compute; reflexivity).
  unfold fat_exists, fat_lookup. rewrite G. split; reflexivity.
Qed.
Print Assumptions C81_exists_refuted.
(** The empty path is the root directory for [lookup] but cannot be listed; and a path with ".." can be listed but is not found: "/GR~1/..". *)
Theorem C81_list_refuted : exists image v table, open_volume image = Ok (v, table) /\ forall timestamp uid gid,
  (exists info, fat_lookup ascii_oem blank image v table 9 timestamp uid gid [] = Ok (Some info) /\ fi_mode info = 16384 + 511) /\ fat_list ascii_oem blank image v table 9 [] = Ok None /\
  exists path names, fat_list ascii_oem blank image v table 9 path = Ok (Some names) /\ names <> [] /\ fat_lookup ascii_oem blank image v table 9 timestamp uid gid path = Ok None.
Proof.
  exists image_small, (fst small_volume), (snd small_volume). split; [rewrite small_opened; now destruct small_volume|]. intros timestamp uid gid. split; [eexists; split; reflexivity|]. split; [vm_compute; reflexivity|].
  exists (47 :: short_dir ++ [47; 46; 46]), [name_dir; name_a]. split; [vm_compute; reflexivity|]. split; [discriminate|]. vm_compute. reflexivity.
Qed.
Print Assumptions C81_list_refuted.
