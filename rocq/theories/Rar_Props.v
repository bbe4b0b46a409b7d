(** Property C71: a RAR archive is served as a tree of folders and files. *)
From Coq Require Import Ascii String.
From Verif Require Import PyBase PyDict PyStr Path_Model Path_Spec Path_Proofs FileInfo Tar_Proofs Rar_Model Rar_Spec Rar_Proofs.
Local Open Scope Z_scope.

(** A folder lists exactly the names that continue its location towards some entry of the archive (folders without an entry of
    their own included), both with and without attributes. *)
Theorem C71_listing_partial :
  forall infolist now uid gid loc n, Forall (fun e => relative (fst e)) infolist -> Forall proper_name loc ->
  (In n (map fst (rar_list uid gid (rar_files infolist) (written loc))) <-> exists i rest, archive_entry infolist (loc ++ n :: rest) i) /\
  (In n (map fst (rar_list_mode (rar_files infolist) (written loc))) <-> exists i rest, archive_entry infolist (loc ++ n :: rest) i) /\
  (In n (map fst (rar_list uid gid (rar_files infolist) (written loc))) <->
     exists f, proper_name n /\ rar_lookup now uid gid (rar_files infolist) (written (loc ++ [n])) 0 = Ok (Some f)).
Proof.
  intros infolist now uid gid loc n R H.
  assert (A : forall V (value : str -> rar_info -> V), In n (map fst (comprehend (rar_files infolist) (written loc) value)) <->
                exists i rest, archive_entry infolist (loc ++ n :: rest) i).
  { intros V value. rewrite comprehend_keys by assumption. unfold archive_entry. split.
    - intros (name & i & rest & I & E). exists i, rest, name. now split.
    - intros (i & rest & name & I & E). now exists name, i, rest. }
  split; [apply A|]. split; [apply A|]. unfold rar_list. rewrite A. split.
  - intros (i & rest & name & I & E). pose proof (denotes_proper name) as P. rewrite E in P.
    assert (Pn : proper_name n) by (apply Forall_app in P as (_ & P); now apply Forall_inv in P).
    assert (P' : Forall proper_name (loc ++ [n])) by (apply Forall_app; split; [exact H|]; constructor; [exact Pn|constructor]).
    rewrite (lookup_first infolist now uid gid). destruct (rar_lookups now uid gid (rar_files infolist) (written (loc ++ [n]))) as [|f l] eqn:L.
    + apply lookups_none in L; [|exact R|exact P']. exfalso. apply L. right. exists name, i, rest. split; [exact I|]. now rewrite <- app_assoc.
    + exists f. split; [exact Pn|reflexivity].
  - intros (f & Pn & L). assert (P' : Forall proper_name (loc ++ [n])) by (apply Forall_app; split; [exact H|]; constructor; [exact Pn|constructor]).
    rewrite (lookup_first infolist now uid gid) in L.
    destruct (rar_lookups now uid gid (rar_files infolist) (written (loc ++ [n]))) as [|f' l] eqn:E; [discriminate|].
    destruct (rar_list uid gid (rar_files infolist) (written loc)) as [|q qs] eqn:Q.
    + assert (D : ~ ~ present infolist (loc ++ [n])) by (intros D; apply (lookups_none infolist R now uid gid _ P') in D; congruence).
      exfalso. apply D. intros [Z|(name & i & rest & I & Z)]; [now destruct loc|].
      assert (K : In n (map fst (rar_list uid gid (rar_files infolist) (written loc)))).
      { unfold rar_list. apply A. exists i, rest, name. split; [exact I|]. now rewrite Z, <- app_assoc. }
      rewrite Q in K. destruct K.
    + clear Q q qs. destruct (in_dec (list_eq_dec ascii_dec) n (map fst (rar_list uid gid (rar_files infolist) (written loc)))) as [I|I]; [unfold rar_list in I; now apply A in I|].
      exfalso. assert (D : ~ present infolist (loc ++ [n])).
      { intros [Z|(name & i & rest & J & Z)]; [now destruct loc|]. apply I. unfold rar_list. apply A. exists i, rest, name. split; [exact J|]. now rewrite Z, <- app_assoc. }
      apply (lookups_none infolist R now uid gid _ P') in D. congruence.
Qed.
Print Assumptions C71_listing_partial.

(** Looking up: the root is a folder; nothing is found where the archive has nothing; the entry at a location is found with its
    attributes and opening it opens that entry; a location that only has entries below it is a folder. *)
Theorem C71_lookup_partial :
  forall infolist now uid gid loc, Forall (fun e => relative (fst e)) infolist -> Forall proper_name loc ->
  let found := rar_lookup now uid gid (rar_files infolist) (written loc) 0 in
  (loc = [] -> exists f, found = Ok (Some f) /\ is_dir_mode (fi_mode f) = true) /\
  (found = Ok None <-> ~ present infolist loc) /\
  (forall i, loc <> [] -> last_entry infolist loc i ->
     exists f, found = Ok (Some f) /\ fi_size f = ri_size i /\ (forall t, ri_time i = Some t -> fi_mtime f = t) /\ (ri_time i = None -> fi_mtime f = 0) /\ (ri_redir i = None -> fi_linkname f = []) /\ fi_mode f = rar_mode i /\
       (forall target, ri_redir i = Some target -> fi_linkname f = target) /\ fi_uid f = uid /\ fi_gid f = gid /\ rar_open f = Ok i) /\
  ((forall i, ~ archive_entry infolist loc i) -> present infolist loc -> exists f, found = Ok (Some f) /\ is_dir_mode (fi_mode f) = true).
Proof.
  intros infolist now uid gid loc R H found. subst found. split; [|split; [|split]].
  - intros ->. eexists. split; reflexivity.
  - rewrite (lookup_first infolist now uid gid). rewrite <- (lookups_none infolist R now uid gid loc H).
    destruct (rar_lookups now uid gid (rar_files infolist) (written loc)); split; (reflexivity || discriminate).
  - intros i N L. destruct (lookup_entry infolist R now uid gid loc i H N L) as (p & ->). eexists. split; [reflexivity|]. cbn.
    split; [reflexivity|]. split; [intros t ->; reflexivity|]. split; [intros ->; reflexivity|]. split; [intros ->; reflexivity|]. split; [reflexivity|]. split; [intros t ->; reflexivity|]. repeat split.
  - intros NE P. destruct loc as [|x loc]; [eexists; split; reflexivity|]. set (l := x :: loc) in *. assert (N : l <> []) by discriminate.
    assert (E : filter (fun '(p, _) => str_eqb (rstrip slash p) (lstrip slash (written l))) (rar_files infolist) = []).
    { destruct (filter _ (rar_files infolist)) as [|[k i] r] eqn:F; [reflexivity|]. exfalso.
      destruct (here_spec infolist R l k i H) as (_ & name & I & D & _); [rewrite F; now left|]. apply (NE i). now exists name. }
    rewrite (lookup_first infolist now uid gid). destruct (rar_lookups now uid gid (rar_files infolist) (written l)) as [|f r] eqn:Q.
    + apply (lookups_none infolist R now uid gid l H) in Q. contradiction.
    + unfold rar_lookups in Q. rewrite as_dir in Q by assumption. rewrite E in Q. cbn [map existsb negb andb app] in Q.
      destruct (existsb _ (rar_files infolist)); [|discriminate]. injection Q as <- <-. eexists. split; reflexivity.
Qed.
Print Assumptions C71_lookup_partial.

(** Versions: as many as reported, counted from either end, and nothing is ever raised. *)
Theorem C71_versions :
  forall infolist now uid gid path v,
  let files := rar_files infolist in let n := rar_versions now uid gid files path in
  ((exists f, rar_lookup now uid gid files path v = Ok (Some f)) <-> - n <= v < n) /\
  (rar_lookup now uid gid files path v = Ok None <-> ~ (- n <= v < n)) /\
  (0 <= v < n -> rar_lookup now uid gid files path v = rar_lookup now uid gid files path (v - n)).
Proof.
  intros infolist now uid gid path v files n. unfold rar_lookup, rar_versions in *. set (l := rar_lookups now uid gid files path) in *.
  assert (P : forall w, 0 <= w < n -> exists f, py_index l w = Ok f /\ py_index l (w - n) = Ok f).
  { intros w W. unfold py_index. change (len l) with n. destruct (Z.ltb_spec w 0); [lia|]. destruct (Z.ltb_spec (w - n) 0); [|lia]. replace (w - n + n) with w by lia.
    destruct (Z.ltb_spec w 0); [lia|]. destruct (nth_error l (Z.to_nat w)) as [f|] eqn:E; [now exists f|].
    exfalso. apply nth_error_None in E. unfold n, len in W. lia. }
  change (len l) with n. assert (Q : - n <= v < n -> exists f, py_index l v = Ok f).
  { intros V. destruct (Z.lt_ge_cases v 0); [destruct (P (v + n)) as (f & _ & E); [lia|]; replace (v + n - n) with v in E by lia; now exists f|].
    destruct (P v) as (f & E & _); [lia|]. now exists f. }
  split; [|split].
  - destruct (Z.leb_spec (- n) v), (Z.ltb_spec v n); cbn [andb]; split; try (intros (f & E); discriminate); try lia.
    intros V. destruct (Q V) as (f & ->). now exists f.
  - destruct (Z.leb_spec (- n) v), (Z.ltb_spec v n); cbn [andb]; split; try reflexivity; try lia.
    intros E. destruct Q as (f & Q); [lia|]. rewrite Q in E. discriminate.
  - intros V. destruct (P v V) as (f & -> & ->). destruct (Z.leb_spec (- n) v), (Z.ltb_spec v n), (Z.leb_spec (- n) (v - n)), (Z.ltb_spec (v - n) n); try lia. reflexivity.
Qed.
Print Assumptions C71_versions.

(** The type bits of an entry, when the archive's mode has none. *)
Theorem C71_types :
  forall i, 0 <= ri_mode i < 4096 ->
  (rar_mode i) mod 4096 = ri_mode i /\
  is_lnk_mode (rar_mode i) = (match ri_redir i with Some _ => true | None => false end) /\
  is_dir_mode (rar_mode i) = (match ri_redir i with Some _ => false | None => ri_dir i end) /\
  is_reg_mode (rar_mode i) = (match ri_redir i with Some _ => false | None => negb (ri_dir i) end).
Proof.
  intros i M. pose proof (low_land_high _ M) as A. pose proof (low_land_low _ M) as B.
  unfold rar_mode, is_lnk_mode, is_dir_mode, is_reg_mode. change 4096 with (2 ^ 12). rewrite <- Z.land_ones by lia. change (Z.ones 12) with 4095.
  destruct (ri_redir i) as [target|]; [|destruct (ri_dir i)]; rewrite !Z.land_lor_distr_l, A, B; cbn [Z.lor]; rewrite ?Z.lor_0_r; repeat split;
    rewrite ?Z.lor_0_l; reflexivity.
Qed.
Print Assumptions C71_types.

(** The attributes in a listing are those of the entry when nothing below it comes later in the archive (RAR writes folders last). *)
Theorem C71_listed_attributes_partial :
  forall before name i after uid gid loc n,
  let infolist := before ++ (name, i) :: after in
  Forall (fun e => relative (fst e)) infolist -> NoDup (map (fun e => denotes (fst e)) infolist) -> Forall proper_name loc ->
  denotes name = loc ++ [n] -> (forall name' j rest, In (name', j) after -> denotes name' <> loc ++ n :: rest) ->
  dget str_eqb (rar_list_mode (rar_files infolist) (written loc)) n = Some (rar_mode i) /\
  exists f, dget str_eqb (rar_list uid gid (rar_files infolist) (written loc)) n = Some f /\ fi_size f = ri_size i /\ fi_mode f = rar_mode i /\ rar_open f = Ok i.
Proof.
  intros before name i after uid gid loc n infolist R ND H D A. split.
  - unfold rar_list_mode. destruct (listed_value (fun _ i => rar_mode i) before name i after loc n R ND H D A) as (p & E). exact E.
  - unfold rar_list. destruct (listed_value (rar_file_info uid gid) before name i after loc n R ND H D A) as (p & E). eexists. split; [exact E|]. repeat split.
Qed.
Print Assumptions C71_listed_attributes_partial.

Definition a_file (size : Z) (id : nat) : rar_info := mkRar size (Some 1000) 420 None false id.
Definition a_folder (id : nat) : rar_info := mkRar 0 None 493 None true id.
Definition example_rar : list (str * rar_info) :=
  [($"d/x", a_file 5 0); ($"../e/./f/y", a_file 6 1); ($"d/x", a_file 7 2); ($"d/", a_folder 3)].
Example C71_example :
  Forall (fun e => relative (fst e)) example_rar /\ last_entry example_rar [$"d"; $"x"] (a_file 7 2) /\ last_entry example_rar [$"d"] (a_folder 3) /\
  map fst (rar_list 0 0 (rar_files example_rar) $"/") = [$"d"; $"e"] /\ rar_list_mode (rar_files example_rar) $"/e" = [($"f", 33188)] /\
  (exists f, rar_lookup 0 0 0 (rar_files example_rar) $"/d/x" 0 = Ok (Some f) /\ fi_size f = 7).
Proof.
  split; [|split; [|split; [|split; [reflexivity|split; [reflexivity|eexists; split; reflexivity]]]]].
  - repeat constructor; try (intros r E; discriminate); intros E; discriminate.
  - exists [($"d/x", a_file 5 0); ($"../e/./f/y", a_file 6 1)], $"d/x", [($"d/", a_folder 3)]. split; [reflexivity|]. split; [reflexivity|].
    split; [repeat constructor; intros E; discriminate|]. constructor; [intros _; cbn [fst]; tauto|]. constructor; [intros E; discriminate|constructor].
  - exists [($"d/x", a_file 5 0); ($"../e/./f/y", a_file 6 1); ($"d/x", a_file 7 2)], $"d/", []. split; [reflexivity|]. split; [reflexivity|].
    split; [constructor|]. repeat constructor; intros E; discriminate.
Qed.

(** ** What does not hold *)
(** Entries with absolute names are listed but cannot be looked up. *)
Theorem C71_absolute_refuted :
  exists infolist n, (forall name i, In (name, i) infolist -> denotes name <> []) /\
    In n (map fst (rar_list 0 0 (rar_files infolist) $"/")) /\ rar_lookup 0 0 0 (rar_files infolist) ($"/" ++ n) 0 = Ok None.
Proof.
  exists [($"/etc/passwd", a_file 5 0)], $"etc". split; [|split].
  - intros name i [E|[]]. injection E as <- <-. discriminate.
  - left. reflexivity.
  - reflexivity.
Qed.
Print Assumptions C71_absolute_refuted.

(** An entry for the root is listed as a file with the name ".". *)
Theorem C71_dot_refuted : exists infolist, map fst (rar_list 0 0 (rar_files infolist) $"/") = [$"."].
Proof. exists [($"./", a_folder 0)]. reflexivity. Qed.
Print Assumptions C71_dot_refuted.

(** A folder whose entries come later, or that has no entry of its own, is listed as a regular file. *)
Theorem C71_listed_mode_refuted :
  exists infolist, Forall (fun e => relative (fst e)) infolist /\ last_entry infolist [$"d"] (a_folder 0) /\
    option_map is_reg_mode (dget str_eqb (rar_list_mode (rar_files infolist) $"/") $"d") = Some true /\
    (exists f, rar_lookup 0 0 0 (rar_files infolist) $"/d" 0 = Ok (Some f) /\ is_dir_mode (fi_mode f) = true).
Proof.
  exists [($"d/", a_folder 0); ($"d/x", a_file 5 1)]. split; [|split; [|split; [reflexivity|eexists; split; reflexivity]]].
  - repeat constructor; try (intros r E; discriminate); intros E; discriminate.
  - exists [], $"d/", [($"d/x", a_file 5 1)]. split; [reflexivity|]. split; [reflexivity|]. split; [|constructor]. constructor; [intros E; discriminate|constructor].
Qed.
Print Assumptions C71_listed_mode_refuted.

(** A missing path and a file are listed as empty folders instead of being rejected. *)
Theorem C71_missing_list_refuted :
  exists infolist, rar_lookup 0 0 0 (rar_files infolist) $"/nothing" 0 = Ok None /\ rar_list 0 0 (rar_files infolist) $"/nothing" = [].
Proof. exists [($"x", a_file 5 0)]. split; reflexivity. Qed.
Print Assumptions C71_missing_list_refuted.
