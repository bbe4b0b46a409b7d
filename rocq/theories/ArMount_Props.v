(** Property C123: a mounted AR archive shows its members.  The archives are those of Ar_Spec.v. *)
From Coq Require Import Ascii String Permutation.
From Verif Require Import PyBase PyDict PyStr Path_Model Path_Spec Path_Proofs FileInfo Index_Model Index_Spec Index_Proofs Tar_Model Tar_Proofs Member_Proofs Rar_Proofs
  Ar_Model Ar_Spec Ar_Proofs Ar_Props ArMount_Model.
Local Open Scope Z_scope.

Lemma regions_sorted files : forall from, Forall (fun f => 0 <= a_size f) files -> regions from files ->
  Forall (fun f => from <= a_offset f) files /\ (forall x f y g z, files = x ++ f :: y ++ g :: z -> a_offset f < a_offset g).
Proof.
  induction files as [|f files IH]; intros from P H; [split; [constructor|intros [|? ?]; discriminate]|]. inversion P as [|? ? P1 P2]; subst. destruct H as (H1 & H2 & H3).
  destruct (IH _ P2 H3) as (A & B). split.
  - constructor; [exact H1|]. eapply Forall_impl; [|exact A]. cbv beta. intros g G. lia.
  - intros [|h x] f' y g z E.
    + injection E as -> ->. rewrite Forall_forall in A. specialize (A g). assert (In g (y ++ g :: z)) as I by (apply in_or_app; right; now left). specialize (A I). lia.
    + injection E as -> ->. now apply (B x f' y g z).
Qed.
Lemma Forall2_split {A B} (R : A -> B -> Prop) a x b l : Forall2 R (a ++ x :: b) l -> exists c y d, l = c ++ y :: d /\ Forall2 R a c /\ R x y /\ Forall2 R b d.
Proof. intros H. apply Forall2_app_inv_l in H as (c & d & H1 & H2 & ->). inversion H2 as [|? y ? d' H3 H4]; subst. now exists c, y, d'. Qed.
Lemma Forall2_in_r {A B} (R : A -> B -> Prop) a b y : Forall2 R a b -> In y b -> exists x, In x a /\ R x y.
Proof. induction 1 as [|x z a b H F IH]; intros I; [destruct I|]. destruct I as [<- |I]; [exists x; split; [now left|exact H]|]. destruct (IH I) as (w & Iw & Rw). exists w. split; [now right|exact Rw]. Qed.

Section C123.
  Variables decode transform : str -> str.
  Let row_of := ar_row decode transform.
  Let loc_of (f : ainfo) : location := Path_Spec.denotes (transform (decode (a_name f))).

  Lemma ar_row_fields f : full_path (row_of f) = written (loc_of f) /\ ~ In slash (r_name (row_of f)) /\
    row_to_file_info (row_of f) = mkInfo (a_size f) (a_mtime f) (row_mode f) (decode (a_linkname f)) (a_uid f) (a_gid f) [mkTD (a_offset_data f) (a_offset f) false false false 0].
  Proof.
    unfold row_of, loc_of, ar_row. rewrite normpath_written. destruct (split_last_written _ (denotes_proper (transform (decode (a_name f))))) as (a & b & -> & E & N).
    split; [exact E|]. split; [exact N|]. reflexivity.
  Qed.

  (** The place at which a member is shown. *)
  Definition place (m : member) : location := Path_Spec.denotes (transform (decode (m_name m))).
  Definition regular_mode (m : member) : Prop := Z.land (v_mode (m_meta m)) 61440 = 0 \/ Z.land (v_mode (m_meta m)) 61440 = 32768.

  (** C123: every archive can be mounted, and the last member at a location is found there with its attributes and contents, provided that
      no member is below it.  Long GNU names: see C38. *)
  Theorem C123_lookup_and_open_partial :
    forall ps, archive_ok ps -> first_names ps ->
    exists rows, ar_index decode transform (archive ps) = Ok rows /\
    forall now uid gid sh before m after, any_order sh -> members ps = before ++ m :: after -> place m <> [] -> regular_mode m ->
      (forall m', In m' after -> place m' <> place m) -> (forall m' rest, In m' (members ps) -> rest <> [] -> place m' <> place m ++ rest) ->
      exists i, lookup now uid gid sh rows (written (place m)) 0 = Some i /\ ar_open (archive ps) i = Ok (m_content m) /\
        fi_size i = Z.of_nat (List.length (m_content m)) /\ fi_mtime i = v_mtime (m_meta m) /\ fi_uid i = v_uid (m_meta m) /\ fi_gid i = v_gid (m_meta m) /\
        fi_mode i = Z.lor (v_mode (m_meta m)) 32768 /\ fi_linkname i = decode [].
  Proof.
    intros ps A F. destruct (C38_round_trip_partial ps A F) as (files & E & D). unfold ar_index. rewrite E. cbn [bind]. eexists. split; [reflexivity|].
    intros now uid gid sh before m after Hsh Em N R Na Nb.
    assert (Sizes : Forall (fun f => 0 <= a_size f) files).
    { apply Forall_forall. intros f I. destruct (Forall2_in_r _ _ _ _ D I) as (x & _ & H). destruct H as (_ & _ & _ & _ & _ & -> & _). apply len_nonneg. }
    destruct (C38_regions _ _ E eq_refl) as (Rg & _). destruct (regions_sorted files 8 Sizes Rg) as (_ & Sorted).
    rewrite Em in D. destruct (Forall2_split _ _ _ _ _ D) as (fb & f & fa & -> & Db & Df & Da).
    destruct (ar_row_fields f) as (F1 & F2 & F3). destruct Df as (Hn & Ht & Hu & Hg & Hm & Hs & Hl & Hsym & Ho & Hz).
    assert (L : loc_of f = place m) by (unfold loc_of, place; now rewrite Hn).
    assert (Mode : row_mode f = Z.lor (v_mode (m_meta m)) 32768).
    { unfold row_mode. rewrite Hsym, Hm. assert (Z.lor (v_mode (m_meta m)) 32768 <> 0) as X by (intros X; apply Z.lor_eq_0_iff in X as [_ X]; discriminate).
      rewrite (proj2 (Z.eqb_neq _ _) X). change S_IFREG with 32768. rewrite Z.lor_diag, <- Z.lor_assoc, Z.lor_diag. reflexivity. }
    exists (row_to_file_info (row_of f)). split.
    - assert (Off : forall g, r_offsetheader (row_of g) = a_offset g). { intros g. unfold row_of, ar_row. destruct (split_last _). reflexivity. }
      rewrite <- L. apply (member_lookup row_of loc_of); auto.
      + intros e. apply ar_row_fields.
      + intros e. apply ar_row_fields.
      + intros e. apply denotes_proper.
      + now rewrite L.
      + intros g Ig _. rewrite !Off. apply in_split in Ig as (x & y & ->). specialize (Sorted x g y f fa). rewrite <- app_assoc in Sorted. specialize (Sorted eq_refl). lia.
      + intros g Ig Lg. exfalso. destruct (Forall2_in_r _ _ _ _ Da Ig) as (x & Ix & Hx). apply (Na x Ix). rewrite L in Lg. rewrite <- Lg. unfold loc_of, place. now rewrite (proj1 Hx).
      + right. intros g rest Ig Nr Lg. destruct (Forall2_in_r _ _ _ _ D Ig) as (x & Ix & Hx). apply (Nb x rest); [now rewrite Em|exact Nr|]. rewrite L in Lg. rewrite <- Lg. unfold loc_of, place. now rewrite (proj1 Hx).
    - rewrite F3. unfold ar_open. cbn [fi_mode fi_userdata fi_size u_offset fi_mtime fi_uid fi_gid fi_linkname]. rewrite Mode, Hz, Hs, Ht, Hu, Hg, Hl.
      assert (is_lnk_mode (Z.lor (v_mode (m_meta m)) 32768) = false) as ->.
      { unfold is_lnk_mode. rewrite Z.land_lor_distr_l. change S_IFMT with 61440. destruct R as [-> | ->]; reflexivity. }
      repeat split; reflexivity.
  Qed.

  (** Nothing is found where there is no member and no folder of a member, and folders list what is found below them. *)
  Theorem C123_nothing_else_partial :
    forall ps, archive_ok ps -> first_names ps ->
    exists rows, ar_index decode transform (archive ps) = Ok rows /\
    (forall now uid gid sh loc, any_order sh -> Forall proper_name loc -> loc <> [] -> (forall m rest, In m (members ps) -> place m <> loc ++ rest) ->
      lookup now uid gid sh rows (written loc) 0 = None) /\
    (forall now uid gid sh sh1 loc n, any_order sh -> any_order sh1 -> Forall proper_name loc -> proper_name n ->
      match index_list sh1 rows (written loc) with Some d => dget str_eqb d n | None => None end = lookup now uid gid sh rows (written (loc ++ [n])) 0).
  Proof.
    intros ps A F. destruct (C38_round_trip_partial ps A F) as (files & E & D). unfold ar_index. rewrite E. cbn [bind]. eexists. split; [reflexivity|]. split.
    - intros now uid gid sh loc Hsh P N H. apply (member_lookup_none row_of loc_of); auto.
      + intros e. apply ar_row_fields.
      + intros e. apply ar_row_fields.
      + intros e. apply denotes_proper.
      + intros g rest Ig Lg. destruct (Forall2_in_r _ _ _ _ D Ig) as (x & Ix & Hx). apply (H x rest Ix). rewrite <- Lg. unfold loc_of, place. now rewrite (proj1 Hx).
    - intros now uid gid sh sh1 loc n Hsh Hsh1 P Pn. apply (member_list row_of loc_of); auto.
      + intros e. apply ar_row_fields.
      + intros e. apply ar_row_fields.
      + intros e. apply denotes_proper.
  Qed.
End C123.
Print Assumptions C123_lookup_and_open_partial.
Print Assumptions C123_nothing_else_partial.

(** The archive with all three styles of names: the member with the name behind its header. *)
Example C123_case :
  let id := fun s : str => s in let m := mkMember $"a name with spaces" (Bsd 2) (ex_meta $"23" 23) $"xyz" [newline] in
  archive_ok ex_parts /\ first_names ex_parts /\ place id id m = [$"a name with spaces"] /\ regular_mode m /\
  (exists before, members ex_parts = before ++ [m]) /\ (forall m' rest, In m' (members ex_parts) -> rest <> [] -> place id id m' <> place id id m ++ rest) /\
  (forall m' rest, In m' (members ex_parts) -> place id id m' <> [$"none"] ++ rest).
Proof.
  cbv zeta. split; [apply C38_round_trip_example|]. split; [apply C38_round_trip_example|]. split; [reflexivity|]. split; [right; reflexivity|].
  split; [eexists [_; _]; reflexivity|]. cbn [members ex_parts flat_map app]. split; intros m' rest I.
  - intros N. destruct I as [<- |[<- |[<- |[]]]]; intros E; (destruct rest as [|x rest]; [contradiction|]); vm_compute in E; discriminate E.
  - destruct I as [<- |[<- |[<- |[]]]]; intros E; vm_compute in E; discriminate E.
Qed.
