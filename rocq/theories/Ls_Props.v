(** Property C128: listing a mounted TAR archive. *)
From Coq Require Import Ascii String Permutation.
From Verif Require Import PyBase PyDict PyStr Path_Model Path_Spec Path_Proofs FileInfo Union_Model Index_Model Index_Spec Index_Proofs Build_Proofs
  SeqIndex_Proofs Version_Model Tar_Model Tar_Spec Tar_Proofs TarRead_Model TarRead_Spec TarRead_Proofs
  Front_Spec Front_Model Served_Spec Served_Model Served_Proofs Served_Props Ls_Spec Ls_Model Ls_Proofs.
Local Open Scope Z_scope.

Lemma filter_all {X} (l : list X) f : (forall x, f x = true) -> filter f l = l.
Proof. intros H. induction l as [|x l IH]; [reflexivity|]. cbn [filter]. now rewrite H, IH. Qed.

(** A folder of which something is known: what [readdir] gives. *)
Lemma ls_dict transform strip remount archive l now uid gid mode sh loc d : tarball archive l -> any_order sh -> Forall proper_name loc ->
  let rows := build (index_part transform strip remount false archive 1 0 archive [] 0) in
  (loc = [] \/ exists n, holds_name transform l loc n) -> Index_Model.list_mode sh rows (written loc) = Some d ->
  exists a b, ls now uid gid rows mode sh (written loc) = Ok (($".", a) :: ($"..", b) :: map (fun f => (fst f, Some (snd f))) d).
Proof.
  intros Ht Hsh P rows Hb E. unfold ls, front_readdir. unfold ls_modes at 1, v_list. cbn [s_list_mode tar_source]. rewrite E.
  assert (X : forall a b, loc = a ++ b -> lookup now uid gid sh rows (written a) 0 <> None).
  { intros a b Eq. destruct Hb as [Hb|(n & pos & m & body & rest & I & El)].
    - rewrite Hb in Eq. symmetry in Eq. apply app_eq_nil in Eq as [-> _]. discriminate.
    - rewrite Eq, <- app_assoc in El. destruct (b ++ n :: rest) as [|x y] eqn:Q; [now destruct b|].
      exact (prefix_exists transform strip remount archive l Ht now uid gid sh Hsh a x y pos m body I El). }
  destruct (ls_lookup_some transform strip remount archive now uid gid sh loc P X) as (i & Li). fold rows in Li.
  assert (Ge : forall p i, ls_lookup now uid gid rows sh p = Some i -> exists s, front_getattr (ls_lookup now uid gid rows sh) (fun _ => $"/") None p = Ok s).
  { intros p j Lj. unfold front_getattr, front_lookup. rewrite Lj. eauto. }
  destruct (Ge _ _ Li) as (s & Gs). rewrite Gs.
  destruct (str_eqb_spec (written loc) $"/") as [Er|Er].
  - eexists _, _. rewrite filter_all by reflexivity. reflexivity.
  - destruct (exists_last (l := loc)) as (up & n & El); [intros ->; now apply Er|]. subst loc. apply Forall_app in P as [P1 P2]. pose proof (Forall_inv P2) as Pn.
    assert (Hu : exists s, front_getattr (ls_lookup now uid gid rows sh) (fun _ => $"/") None (rsplit_head (written (up ++ [n]))) = Ok s).
    { unfold rsplit_head. rewrite rsplit_written by assumption. destruct up as [|x up].
      - eapply Ge. reflexivity.
      - destruct (ls_lookup_some transform strip remount archive now uid gid sh (x :: up) P1) as (j & Lj).
        + intros a b Eq. apply (X a (b ++ [n])). rewrite Eq. now rewrite app_assoc.
        + eapply Ge. exact Lj. }
    destruct Hu as (s' & ->). eexists _, _. rewrite filter_all by reflexivity. reflexivity.
Qed.

(** C128: listing the root, or a location with something below it, gives ".", ".." and the name of everything in the archive that is in it
    or below it, each once. *)
Theorem C128_list :
  forall (transform : str -> str) (strip : bool) (remount : option (str -> str)) (archive : list block) l, tarball archive l ->
  forall now uid gid mode sh loc, any_order sh -> Forall proper_name loc -> (loc = [] \/ exists n, holds_name transform l loc n) ->
  let rows := build (index_part transform strip remount false archive 1 0 archive [] 0) in
  exists a b entries, ls now uid gid rows mode sh (written loc) = Ok (($".", a) :: ($"..", b) :: entries) /\ NoDup (map fst entries) /\
    forall n, In n (map fst entries) <-> holds_name transform l loc n.
Proof.
  intros transform strip remount archive l Ht now uid gid mode sh loc Hsh P Hb rows.
  pose proof (list_mode_keys transform strip remount archive l Ht sh Hsh loc P) as K. fold rows in K.
  destruct (Index_Model.list_mode sh rows (written loc)) as [d|] eqn:E.
  - destruct K as [Nd K]. destruct (ls_dict transform strip remount archive l now uid gid mode sh loc d Ht Hsh P Hb E) as (a & b & L).
    exists a, b, (map (fun f => (fst f, Some (snd f))) d). split; [exact L|]. rewrite map_map. cbn [fst]. split; [exact Nd|exact K].
  - destruct Hb as [-> |(n & pos & m & body & rest & I & El)]; [|exfalso; exact (K _ _ _ _ _ I El)].
    exists None, None, []. split; [|split; [constructor|]].
    + unfold ls, front_readdir. unfold ls_modes, v_list. cbn [s_list_mode tar_source]. rewrite E.
      change (decode (tar_source now uid gid rows sh) (written [])) with (Some ($"/", false, 0)). cbn iota beta. change ($"/") with (written []). rewrite E. reflexivity.
    + intros n. split; [intros []|]. intros (pos & m & body & rest & I & El). exact (K _ _ _ _ _ I El).
Qed.
Print Assumptions C128_list.

(** A location with nothing below it has no entries, unless it looks like a .versions folder. *)
Theorem C128_nothing_below :
  forall (transform : str -> str) (strip : bool) (remount : option (str -> str)) (archive : list block) l, tarball archive l ->
  forall now uid gid mode sh loc, any_order sh -> Forall proper_name loc -> loc <> [] -> (forall n, ~ holds_name transform l loc n) ->
  Forall (fun n => forall stem, n <> stem ++ $".versions") loc ->
  let rows := build (index_part transform strip remount false archive 1 0 archive [] 0) in
  ls now uid gid rows mode sh (written loc) = Ok [($".", None); ($"..", None)].
Proof.
  intros transform strip remount archive l Ht now uid gid mode sh loc Hsh P N Hn V rows.
  pose proof (list_mode_keys transform strip remount archive l Ht sh Hsh loc P) as K. fold rows in K.
  assert (E : Index_Model.list_mode sh rows (written loc) = None).
  { pose proof (listing_None r_mode sh Hsh rows (written loc) eq_refl) as HN. apply HN.
    destruct (filter (in_folder (written loc)) rows) as [|r l'] eqn:Q; [reflexivity|]. exfalso.
    assert (I : In r (filter (in_folder (written loc)) rows)) by (rewrite Q; now left). apply filter_In in I as [I F].
    unfold in_folder in F. rewrite denotes_written in F by exact P. destruct (str_eqb_spec (r_path r) (folder_of loc)) as [F'|]; [|discriminate].
    destruct (list_eq_dec ascii_dec (r_name r) []) as [En|En].
    - assert (B : forall r, In r (inserted_rows (index_part transform strip remount false archive 1 0 archive [] 0)) -> backend_row r)
        by (apply (flat_backend transform strip remount archive l Ht)).
      destruct (built_rows _ B) as (_ & B2 & B3 & _). fold rows in B2, B3. destruct (B2 r I) as [(a & b & Q' & _)|(below & pre & n & _ & G & _)].
      + assert (I' : In r (inserted_rows (index_part transform strip remount false archive 1 0 archive [] 0))) by (rewrite Q'; apply in_or_app; right; now left).
        destruct (B r I') as [S [[R1 _]|(loc' & name & Mr)]]; [rewrite R1 in F'; now destruct loc|].
        destruct (member_row_split r loc' name S Mr) as [_ S2]. destruct Mr as (_ & (X & _) & _). congruence.
      + destruct G as (G1 & _ & _ & _ & _ & _ & _ & _ & _ & _ & _ & rest & name & (M1 & M2 & M3)).
        apply Forall_app in M1 as [P0 Pr]. pose proof (Forall_inv Pr) as Pn.
        destruct (member_row_split r pre n (B3 r I) (conj P0 (conj Pn G1))) as [_ S2]. destruct Pn as (X & _). congruence.
    - apply (Hn (r_name r)). destruct (proj1 (row_in_folder transform strip remount archive l Ht loc (r_name r) P En)) as (pos & m & body & rest & Im & El).
      { exists r. auto. } exists pos, m, body, rest. auto. }
  unfold ls, front_readdir. unfold ls_modes, v_list. cbn [s_list_mode tar_source]. rewrite E.
  destruct (decode_plain transform strip remount archive now uid gid sh loc P) as [D|D].
  - intros a n b Eq. left. rewrite Forall_forall in V. specialize (V n ltac:(rewrite Eq; apply in_or_app; right; now left)).
    destruct (ends_with $".versions" n) eqn:X; [|reflexivity]. apply ends_with_spec in X as (t & X). now destruct (V t).
  - fold rows in D. rewrite D. reflexivity.
  - fold rows in D. rewrite D. cbn iota beta. cbn [s_list_mode tar_source]. rewrite E. reflexivity.
Qed.
Print Assumptions C128_nothing_below.

(** The types and permissions that are listed: those of the last member at the location, and those of a folder that everybody may read if
    something is below the location but no member is at it. *)
Theorem C128_modes :
  forall (transform : str -> str) (strip : bool) (remount : option (str -> str)) (archive : list block) l, tarball archive l ->
  forall now uid gid mode sh loc n, any_order sh -> Forall proper_name loc ->
  let rows := build (index_part transform strip remount false archive 1 0 archive [] 0) in
  (forall pos m body bits, last_at transform l (loc ++ [n]) (pos, m, body) -> type_bits (m_type m) bits -> Z.land (m_mode m) 61440 = 0 ->
     (m_type m = "5"%char \/ none_below transform l (loc ++ [n])) ->
     exists entries, ls now uid gid rows mode sh (written loc) = Ok entries /\ In (n, Some (Z.lor (m_mode m) bits)) entries) /\
  (holds_name transform l loc n -> (forall pos m body, In (pos, m, body) l -> location_of transform [] m <> loc ++ [n]) ->
     exists entries, ls now uid gid rows mode sh (written loc) = Ok entries /\ In (n, Some 16749) entries).
Proof.
  intros transform strip remount archive l Ht now uid gid mode sh loc n Hsh P rows.
  assert (B : forall r, In r (inserted_rows (index_part transform strip remount false archive 1 0 archive [] 0)) -> backend_row r)
    by (apply (flat_backend transform strip remount archive l Ht)).
  destruct (built_rows _ B) as (B1 & B2 & B3 & B4). fold rows in B1, B2, B3, B4.
  assert (G : forall v, holds_name transform l loc n -> proper_name n -> option_map fi_mode (lookup now uid gid sh rows (written (loc ++ [n])) 0) = Some v ->
    exists entries, ls now uid gid rows mode sh (written loc) = Ok entries /\ In (n, Some v) entries).
  { intros v Hn Pn Lv. destruct (list_agrees now uid gid sh sh sh rows (written loc) Hsh Hsh Hsh B3 B4 eq_refl) as (_ & A2 & _).
    specialize (A2 n Pn). assert (E0 : lookup now uid gid sh rows (written loc ++ slash :: n) 0 = lookup now uid gid sh rows (written (loc ++ [n])) 0).
    { unfold lookup. rewrite !query_written by reflexivity. rewrite denotes_child by exact Pn. rewrite !denotes_written; [reflexivity| |exact P].
      apply Forall_app. split; [exact P|now constructor]. }
    rewrite E0, Lv in A2. pose proof (list_mode_keys transform strip remount archive l Ht sh Hsh loc P) as K. fold rows in K.
    destruct (Index_Model.list_mode sh rows (written loc)) as [d|] eqn:E; [|discriminate].
    destruct (ls_dict transform strip remount archive l now uid gid mode sh loc d Ht Hsh P (or_intror (ex_intro _ n Hn)) E) as (a & b & L).
    eexists. split; [exact L|]. right. right. apply in_map_iff. exists (n, v). split; [reflexivity|]. symmetry in A2.
    apply (dget_Some_In str_eqb str_eqb_spec) in A2. exact A2. }
  assert (Pn : holds_name transform l loc n -> proper_name n).
  { intros (pos & m & body & rest & I & E). assert (Pm : Forall proper_name (location_of transform [] m)) by apply denotes_proper. rewrite E in Pm.
    apply Forall_app in Pm as [_ Pm]. now apply Forall_inv in Pm. }
  split.
  - intros pos m body bits La Tb M Hb.
    assert (Hn : holds_name transform l loc n).
    { destruct La as (b & a & E & El & _). exists pos, m, body, []. split; [rewrite E; apply in_or_app; right; now left|exact El]. }
    assert (Fm : full_mode m = Z.lor (m_mode m) bits).
    { unfold full_mode, isdir, isfile, issym, ischr, isfifo. unfold type_bits in Tb.
      repeat (destruct Tb as [Tb|Tb]; [injection Tb as <- <-; cbn; now rewrite !Z.lor_0_r|]). destruct Tb. }
    assert (Dw : denotes (written (loc ++ [n])) = loc ++ [n]) by (apply denotes_written; apply Forall_app; split; [exact P|constructor; [now apply Pn|constructor]]).
    apply G; [exact Hn|now apply Pn|]. unfold rows.
    rewrite (flat_lookup transform strip remount archive l Ht now uid gid sh (written (loc ++ [n])) pos m body); auto.
    + cbn [option_map row_to_file_info fi_mode]. pose proof (file_row_fields transform [] 0 0 pos m) as (_ & _ & _ & _ & _ & _ & -> & _). now rewrite Fm.
    + rewrite Dw. now destruct loc.
    + now rewrite Dw.
    + intros Td. rewrite Td in Tb. unfold type_bits in Tb. repeat (destruct Tb as [Tb|Tb]; [discriminate|]). destruct Tb.
    + rewrite Dw. destruct Hb as [T5|Hb]; [left|now right]. rewrite Fm. unfold is_dir_mode. rewrite Z.land_lor_distr_l. change S_IFMT with 61440. rewrite M.
      rewrite T5 in Tb. unfold type_bits in Tb. repeat (destruct Tb as [Tb|Tb]; [try discriminate Tb; injection Tb as <-; reflexivity|]). destruct Tb.
  - intros Hn Na. apply G; [exact Hn|now apply Pn|].
    destruct Hn as (pos & m & body & rest & I & El). pose proof (Pn ltac:(exists pos, m, body, rest; auto)) as Pn'.
    destruct (proj2 (row_in_folder transform strip remount archive l Ht loc n P ltac:(apply Pn'))) as (r & Ir & F & Rn); [exists pos, m, body, rest; auto|].
    fold rows in Ir. destruct (lookup_newest now uid gid sh rows loc n r Hsh B3 B4 P Pn' Ir F Rn) as (r' & Ir' & F' & L). rewrite L. cbn [option_map row_to_file_info fi_mode].
    destruct (B2 r' Ir') as [(a & b & Q & _)|(below & pre & n' & _ & Gn & _)].
    + assert (I' : In r' (inserted_rows (index_part transform strip remount false archive 1 0 archive [] 0))) by (rewrite Q; apply in_or_app; right; now left).
      destruct (inserted_member transform strip remount archive l Ht r' I') as (pos' & m' & body' & Im & Fm). rewrite F' in Fm.
      apply written_inj in Fm; [exfalso; now apply (Na pos' m' body')| |apply denotes_proper]. apply Forall_app. split; [exact P|now constructor].
    + destruct Gn as (_ & -> & _). reflexivity.
Qed.
Print Assumptions C128_modes.

(** The archive of Served_Props.v: the folder a is not in the archive itself. *)
Example C128_case :
  holds_name (fun p => p) linked_members [] $"a" /\ (forall pos m body, In (pos, m, body) linked_members -> location_of (fun p => p) [] m <> [] ++ [$"a"]) /\
  (forall n, ~ holds_name (fun p => p) linked_members [$"l"] n) /\
  ls 0 0 0 (build (index_part (fun p => p) false None false linked_archive 1 0 linked_archive [] 0)) 16877 (fun r => r) $"/" =
    Ok [($".", Some 16895); ($"..", Some 16877); ($"a", Some 16749); ($"l", Some 420)].
Proof.
  split; [|split; [|split]].
  - exists 0%nat, linked_file, [Other 1; Other 2], [$"x"]. split; [now left|reflexivity].
  - intros pos m body [E|[E|[]]]; injection E as <- <- <-; discriminate.
  - intros n (pos & m & body & rest & [E|[E|[]]] & El); injection E as <- <- <-; [discriminate|]. now destruct rest.
  - vm_compute. reflexivity.
Qed.

(** A hard link is listed without the type that the file it leads to has. *)
Theorem C128_link_type_refuted :
  let rows := build (index_part (fun p => p) false None false linked_archive 1 0 linked_archive [] 0) in
  tarball linked_archive linked_members /\
  (exists s, serve 0 0 0 rows [0] mounted (fun r => r, KStat $"/l") = (RStat s, mounted) /\ Z.land (st_mode s) 61440 = 32768) /\
  (exists entries, ls 0 0 0 rows 16877 (fun r => r) $"/" = Ok entries /\ In ($"l", Some 420) entries) /\ Z.land 420 61440 = 0.
Proof.
  cbv zeta. split; [exact linked_tarball|]. split; [eexists; split; reflexivity|]. split; [|reflexivity].
  eexists. split; [vm_compute; reflexivity|]. vm_compute. auto.
Qed.
Print Assumptions C128_link_type_refuted.
