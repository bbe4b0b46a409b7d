(** Property C103: compressed files that are no archives. *)
From Coq Require Import Ascii String.
From Verif Require Import PyBase PyDict PyStr Path_Model Path_Spec FileInfo Index_Model Index_Spec LibIndex_Model MemFile_Spec Stencil_Model Stencil_Spec
  Sparse_Model TarRead_Model Index_Proofs Single_Model Single_Spec Single_Proofs.
Local Open Scope Z_scope.

(** C103: the mount of a compressed file in which no TAR member was found has one file in its root folder.  Its name is the one stored in the
    gzip file, or that of the archive without its suffix; it is found under every path that leads to it, nothing else is found anywhere, and
    reading it gives the decompressed contents, for every history of seeks and reads.  Missing for the full statement: names that a folder
    entry cannot have, stored names behind an extra field and stored names that are not UTF-8; it is false for those. *)
Theorem C103_single_file_partial :
  forall (A : Type) (utf8 : str -> bool) (archive : str) (raw : option str) (contents : list A) (depth : Z) (name : str) (mtime : Z),
  readable_name utf8 raw -> seen_as archive raw name mtime -> proper_name name ->
  exists is, finish_index utf8 [] true archive raw None (len contents) depth = Ok is /\
  forall now uid gid sh, any_order sh ->
  (exists i, index_list sh (build is) $"/" = Some [(name, i)]) /\
  (forall path, starts_with $"../" path = false -> denotes path = [name] ->
   exists i cuts, lookup now uid gid sh (build is) path 0 = Some i /\
     fi_size i = Z.of_nat (length contents) /\ fi_mtime i = mtime /\ fi_mode i = 32768 + 511 /\ fi_linkname i = [] /\ fi_uid i = 0 /\ fi_gid i = 0 /\
     open_member i = Some cuts /\
     forall positions calls, Forall documented calls -> no_negative_seek contents 0 calls ->
     exists s, sf_init cuts = Ok s /\
       map to_answer (sf_run (fun f => match f with O => contents | _ => [] end) (s, positions) (map to_op calls)) = mem_run contents 0 calls) /\
  (forall path v, starts_with $"../" path = false -> denotes path <> [] -> denotes path <> [name] ->
   lookup now uid gid sh (build is) path v = None).
Proof.
  intros A utf8 archive raw contents depth name mtime R S Pn.
  assert (N := seen_name utf8 archive raw name mtime R S).
  unfold finish_index. cbn [inserted_rows flat_map]. unfold single_row. rewrite N. eexists. split; [reflexivity|].
  intros now uid gid sh Sh. cbn [app]. rewrite build_one by reflexivity.
  split; [eexists; apply list_one; [assumption|reflexivity|apply Pn]|]. split.
  - intros path Hp D. eexists. eexists. split.
    + etransitivity; [apply lookup_one with (loc := []) (n := name); [assumption|reflexivity|assumption|exact D|assumption]|].
      cbn [r_name]. destruct (str_eqb_spec name name) as [_|X]; [reflexivity|now contradiction X].
    + cbn [row_to_file_info fi_size fi_mtime fi_mode fi_linkname fi_uid fi_gid r_size r_mtime r_mode r_linkname r_uid r_gid]. do 6 (split; [reflexivity|]).
      split; [reflexivity|]. intros positions calls Hd Hn. now apply opened_whole.
  - intros path v Hp D0 D1. destruct (denotes_snoc path D0) as (loc & n & D & _ & Pn').
    etransitivity; [apply lookup_one with (loc := loc) (n := n); [assumption|reflexivity|assumption|exact D|assumption]|].
    cbn [r_name]. destruct loc as [|a loc]; [|reflexivity]. destruct (str_eqb_spec name n) as [E|]; [|reflexivity].
    exfalso. apply D1. rewrite D, E. reflexivity.
Qed.
Print Assumptions C103_single_file_partial.

(** Every compressed file has such a name, unless a stored name does not end, in which case gzip could not read the file either. *)
Theorem C103_every_file_has_a_name :
  forall archive raw,
  (exists name mtime, seen_as archive raw name mtime) \/
  (exists file flags m0 m1 m2 m3 rest, raw = Some file /\ gzip_file file flags m0 m1 m2 m3 rest /\ Forall (fun c => code c <> 0) rest).
Proof.
  intros archive raw. assert (Ar := cut_archive_name archive).
  destruct raw as [file|]; [|left; do 2 eexists; apply seen_unknown; exact Ar].
  assert (G : (exists flags m0 m1 m2 m3 rest, gzip_file file flags m0 m1 m2 m3 rest) \/ (forall flags m0 m1 m2 m3 rest, ~ gzip_file file flags m0 m1 m2 m3 rest)).
  { destruct file as [|id1 [|id2 [|method [|flag [|m0 [|m1 [|m2 [|m3 [|xfl [|os rest]]]]]]]]]];
      try (right; intros ? ? ? ? ? ? (? & ? & ? & ? & ? & ? & E & _); discriminate).
    destruct (Z.eq_dec (code id1) 31); [|right; intros ? ? ? ? ? ? (? & ? & ? & ? & ? & ? & E & H & _); injection E; intros; subst; contradiction].
    destruct (Z.eq_dec (code id2) 139); [|right; intros ? ? ? ? ? ? (? & ? & ? & ? & ? & ? & E & _ & H & _); injection E; intros; subst; contradiction].
    destruct (Z.eq_dec (code method) 8); [|right; intros ? ? ? ? ? ? (? & ? & ? & ? & ? & ? & E & _ & _ & H & _); injection E; intros; subst; contradiction].
    left. exists (code flag), m0, m1, m2, m3, rest, id1, id2, method, flag, xfl, os. repeat split; assumption. }
  destruct G as [(flags & m0 & m1 & m2 & m3 & rest & G)|G]; [|left; do 2 eexists; apply seen_other; [exact G|exact Ar]].
  destruct (Z.testbit flags 3) eqn:F; [|left; do 2 eexists; eapply seen_unnamed; [exact G| |exact Ar]; unfold has_name; congruence].
  assert (Zt : (exists name, zero_terminated rest name) \/ Forall (fun c => code c <> 0) rest).
  { clear. induction rest as [|c rest [(name & z & a & -> & Hz & Hn)|H]]; [right; constructor| |].
    - destruct (Z.eq_dec (code c) 0) as [E|E]; left; [exists [], c, (name ++ z :: a); auto|].
      exists (c :: name), z, a. split; [reflexivity|]. split; [assumption|now constructor].
    - destruct (Z.eq_dec (code c) 0) as [E|E]; [left; exists [], c, rest; auto|right; now constructor]. }
  destruct Zt as [(name & Zt)|Zt].
  - left. do 2 eexists. eapply seen_stored; [exact G|exact F|exact Zt].
  - right. exists file, flags, m0, m1, m2, m3, rest. auto.
Qed.
Print Assumptions C103_every_file_has_a_name.

Definition chr (n : nat) : ascii := ascii_of_nat n.
Definition header (flags : nat) : str := map chr [31; 139; 8; flags; 1; 2; 0; 0; 0; 3]%nat.
Definition named (flags : nat) (name : str) : str := header flags ++ name ++ chr 0 :: map chr [75; 4; 0]%nat.
Lemma named_gzip flags name : Z.of_N (N_of_ascii (chr flags)) = Z.of_nat flags ->
  gzip_file (named flags name) (Z.of_nat flags) (chr 1) (chr 2) (chr 0) (chr 0) (name ++ chr 0 :: map chr [75; 4; 0]%nat).
Proof. intros H. exists (chr 31), (chr 139), (chr 8), (chr flags), (chr 0), (chr 3). repeat split. exact H. Qed.
Lemma named_ends name : Forall (fun c => code c <> 0) name -> zero_terminated (name ++ chr 0 :: map chr [75; 4; 0]%nat) name.
Proof. intros H. exists (chr 0), (map chr [75; 4; 0]%nat). auto. Qed.
Lemma gzip_unique file f m0 m1 m2 m3 r f' n0 n1 n2 n3 r' :
  gzip_file file f m0 m1 m2 m3 r -> gzip_file file f' n0 n1 n2 n3 r' -> f = f' /\ r = r'.
Proof.
  intros (? & ? & ? & ? & ? & ? & E & _ & _ & _ & F) (? & ? & ? & ? & ? & ? & E' & _ & _ & _ & F'). rewrite E in E'. injection E'. intros. subst. auto.
Qed.

(** "data.txt" stored in "Backup.GZ", and a bzip2 file. *)
Example C103_example :
  (let raw := Some (named 8 $"data.txt") in
   readable_name (fun _ => true) raw /\ seen_as $"/home/u/Backup.GZ" raw $"data.txt" 513 /\ proper_name $"data.txt") /\
  (let raw := Some $"BZh91AY&SY123" in
   readable_name (fun _ => true) raw /\ seen_as $"/home/u/Backup.tar.BZ2" raw $"Backup.tar" 0 /\ proper_name $"Backup.tar").
Proof.
  assert (P8 : Forall (fun c => code c <> 0) $"data.txt") by (repeat (constructor; [vm_compute; discriminate|]); constructor).
  split; cbv zeta.
  - split; [|split].
    + intros file f m0 m1 m2 m3 rest name E G H Zt. injection E as <-. split; [|reflexivity].
      destruct (gzip_unique _ _ _ _ _ _ _ _ _ _ _ _ _ G (named_gzip 8 $"data.txt" eq_refl)) as (-> & _). discriminate.
    + apply (seen_stored _ _ _ (chr 1) (chr 2) (chr 0) (chr 0) _ _ (named_gzip 8 $"data.txt" eq_refl)); [reflexivity|now apply named_ends].
    + repeat split; try discriminate. vm_compute. intuition discriminate.
  - split; [|split].
    + intros file f m0 m1 m2 m3 rest name E (? & ? & ? & ? & ? & ? & F & H & _). injection E as <-. injection F. intros. subst. discriminate.
    + apply seen_other.
      * intros f m0 m1 m2 m3 rest (? & ? & ? & ? & ? & ? & F & H & _). injection F. intros. subst. discriminate.
      * exists $"Backup.tar.BZ2". split.
        { split; [vm_compute; intuition discriminate|right]. now exists $"/home/u". }
        left. exists $"BZ2". split; [vm_compute; auto|]. split; [reflexivity|discriminate].
    + repeat split; try discriminate. vm_compute. intuition discriminate.
Qed.

(** The stored name is not used if the gzip file has an extra field (reading its length always fails), nor if it is not valid UTF-8 (RFC 1952
    has Latin-1): the file is seen under the name of the archive, without the stored time. *)
Theorem C103_unread_name_refuted :
  forall (utf8 : str -> bool) (archive file : str) (flags : Z) m0 m1 m2 m3 rest (name : str) (size depth : Z),
  gzip_file file flags m0 m1 m2 m3 rest -> has_name flags ->
  has_extra flags \/ (zero_terminated rest name /\ utf8 name = false) ->
  exists r, finish_index utf8 [] true archive (Some file) None size depth = Ok [One r] /\ archive_name archive (r_name r) /\ r_mtime r = 0.
Proof.
  intros utf8 archive file flags m0 m1 m2 m3 rest name size depth G N H.
  assert (E : get_gzip_info utf8 file = Err StructError \/ get_gzip_info utf8 file = Err UnicodeError).
  { rewrite (info_gzip utf8 _ _ _ _ _ _ _ G). destruct H as [H|(Zt & U)].
    - left. unfold has_extra in H. now rewrite H.
    - unfold has_name in N. rewrite N, (read_name_spec _ _ Zt), U. destruct (Z.testbit flags 2); auto. }
  unfold finish_index. cbn [inserted_rows flat_map]. unfold single_row, name_and_time.
  destruct E as [-> | ->]; eexists; (split; [reflexivity|]); (split; [apply cut_archive_name|reflexivity]).
Qed.
Print Assumptions C103_unread_name_refuted.

(** Such a file, for which RFC 1952 gives the name "a". *)
Example C103_extra_example :
  let file := header 12 ++ map chr [2; 0; 65; 65]%nat ++ $"a" ++ map chr [0; 75; 4; 0]%nat in
  gzip_file file 12 (chr 1) (chr 2) (chr 0) (chr 0) (map chr [2; 0; 65; 65]%nat ++ $"a" ++ map chr [0; 75; 4; 0]%nat) /\ has_name 12 /\ has_extra 12.
Proof. cbv zeta. split; [|split; reflexivity]. exists (chr 31), (chr 139), (chr 8), (chr 12), (chr 0), (chr 3). repeat split. Qed.

(** A stored name with a slash is listed, but the file is not found under any path; with an empty name the folder is empty.  "." and ".." are
    listed and lead to the root folder. *)
Theorem C103_improper_name_refuted :
  forall (utf8 : str -> bool) (archive : str) (raw : option str) (name : str) (mtime size depth : Z),
  readable_name utf8 raw -> seen_as archive raw name mtime -> ~ proper_name name ->
  exists is, finish_index utf8 [] true archive raw None size depth = Ok is /\
  forall now uid gid sh, any_order sh ->
  (exists entries, index_list sh (build is) $"/" = Some entries /\ (map fst entries = [name] \/ name = [] /\ entries = [])) /\
  forall path v, starts_with $"../" path = false ->
    lookup now uid gid sh (build is) path v = None \/ lookup now uid gid sh (build is) path v = Some (root now uid gid).
Proof.
  intros utf8 archive raw name mtime size depth R S Pn.
  assert (N := seen_name utf8 archive raw name mtime R S).
  unfold finish_index. cbn [inserted_rows flat_map]. unfold single_row. rewrite N. eexists. split; [reflexivity|].
  intros now uid gid sh Sh. cbn [app]. rewrite build_one by reflexivity. split.
  - destruct name as [|c name].
    + exists []. split; [|auto]. unfold index_list. cbn [filter r_path]. change (rstrip slash (query_normpath $"/")) with (@nil ascii).
      change (str_eqb [] []) with true. cbv iota. rewrite (perm_single _ _ (Sh _)). reflexivity.
    + eexists. split; [apply list_one; [assumption|reflexivity|discriminate]|]. left. reflexivity.
  - intros path v Hp. destruct (denotes path) as [|a l] eqn:D.
    + right. now apply root_versions.
    + left. destruct (denotes_snoc path) as (loc & n & D' & _ & Pn'); [congruence|].
      etransitivity; [apply lookup_one with (loc := loc) (n := n); [assumption|reflexivity|assumption|congruence|assumption]|].
      cbn [r_name]. destruct loc; [|reflexivity]. destruct (str_eqb_spec name n) as [->|]; [contradiction|reflexivity].
Qed.
Print Assumptions C103_improper_name_refuted.

(** A gzip file with the stored name "a/b", and an archive file called "..gz". *)
Example C103_improper_example :
  (let raw := Some (named 8 $"a/b") in readable_name (fun _ => true) raw /\ seen_as $"x.gz" raw $"a/b" 513 /\ ~ proper_name $"a/b") /\
  (readable_name (fun _ => true) None /\ seen_as $"d/..gz" None $"." 0 /\ ~ proper_name $".").
Proof.
  assert (P : Forall (fun c => code c <> 0) $"a/b") by (repeat (constructor; [vm_compute; discriminate|]); constructor).
  split; cbv zeta.
  - split; [|split].
    + intros file f m0 m1 m2 m3 rest name E G H Zt. injection E as <-. split; [|reflexivity].
      destruct (gzip_unique _ _ _ _ _ _ _ _ _ _ _ _ _ G (named_gzip 8 $"a/b" eq_refl)) as (-> & _). discriminate.
    + apply (seen_stored _ _ _ (chr 1) (chr 2) (chr 0) (chr 0) _ _ (named_gzip 8 $"a/b" eq_refl)); [reflexivity|now apply named_ends].
    + intros (_ & _ & _ & H). apply H. vm_compute. auto.
  - split; [|split].
    + intros file f m0 m1 m2 m3 rest name E. discriminate.
    + apply seen_unknown. exists $"..gz". split.
      { split; [vm_compute; intuition discriminate|right]. now exists $"d". }
      left. exists $"gz". split; [vm_compute; auto|]. split; [reflexivity|discriminate].
    + intros (_ & H & _). now apply H.
Qed.

(** Archives in which members were found are not changed; without compression an archive without members is an error, and a compressed one is
    seen as a single file, although it can be an empty TAR archive. *)
Theorem C103_only_without_members :
  forall utf8 found compressed archive raw stat size depth,
  (inserted_rows found <> [] -> finish_index utf8 found compressed archive raw stat size depth = Ok found) /\
  (inserted_rows found = [] -> compressed = false -> exists e, finish_index utf8 found compressed archive raw stat size depth = Err e).
Proof.
  intros utf8 found compressed archive raw stat size depth. unfold finish_index. destruct (inserted_rows found) as [|r l]; split; intros H.
  - contradiction.
  - intros ->. eauto.
  - reflexivity.
  - discriminate.
Qed.
Print Assumptions C103_only_without_members.
