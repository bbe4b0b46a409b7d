(** Lemmas about the versions of a path in a mounted TAR archive. *)
From Coq Require Import Ascii String Permutation Sorting.Sorted.
From Verif Require Import PyBase PyDict PyStr PyInt Path_Model Path_Spec Path_Proofs FileInfo Union_Model Union_Spec Index_Model Index_Spec Index_Proofs Build_Proofs
  SeqIndex_Proofs Version_Model Version_Spec Version_Proofs MemFile_Spec Stencil_Spec Stencil_Model Stencil_Props Sparse_Model
  Tar_Model Tar_Spec Tar_Proofs TarRead_Model TarRead_Spec TarRead_Proofs
  Front_Spec Front_Model Served_Spec Served_Model Served_Proofs Ls_Spec Ls_Model Ls_Proofs OldVer_Spec.
Local Open Scope Z_scope.

Lemma sorted_sub {X Y} (R : X -> X -> Prop) (f : Y -> X) (g : Y -> bool) (k : list Y) :
  StronglySorted (fun a b => R (f a) (f b)) k -> StronglySorted R (map f (filter g k)).
Proof.
  induction 1 as [|x k S IH F]; [constructor|]. cbn [filter]. destruct (g x); [|exact IH]. cbn [map]. constructor; [exact IH|].
  rewrite Forall_forall in *. intros y Hy. apply in_map_iff in Hy as (z & <- & Hz). apply filter_In in Hz as [Hz _]. now apply F.
Qed.

Lemma sorted_nodup {X} (f : X -> Z) (k : list X) : StronglySorted (fun a b => f a < f b) k -> NoDup k.
Proof.
  induction 1 as [|x k S IH F]; constructor; [|exact IH]. intros I. rewrite Forall_forall in F. specialize (F x I). lia.
Qed.

Section OldVer.
  Variable transform : str -> str.
  Variable strip : bool.
  Variable remount : option (str -> str).
  Variable archive : list block.
  Variable l : list (nat * member * list block).
  Hypothesis Ht : tarball archive l.
  Let is := index_part transform strip remount false archive 1 0 archive [] 0.
  Variables now uid gid : Z.
  Variable sh : list row -> list row.
  Hypothesis Hsh : any_order sh.
  Let src := tar_source now uid gid (build is) sh.
  Let the_row (x : nat * member * list block) : row := file_row transform [] 0 0 (fst (fst x)) (snd (fst x)).

  Definition here (loc : location) (x : nat * member * list block) : bool :=
    if list_eq_dec (list_eq_dec ascii_dec) (location_of transform [] (snd (fst x))) loc then true else false.
  Lemma versions_filter loc k : versions_at transform k loc = filter (here loc) k.
  Proof.
    induction k as [|[[pos m] body] k IH]; [reflexivity|]. cbn [versions_at filter]. unfold here. cbn [fst snd].
    destruct (list_eq_dec _ (location_of transform [] m) loc); [f_equal; exact IH|exact IH].
  Qed.
  Lemma versions_In loc pos m body : In (pos, m, body) (versions_at transform l loc) <-> In (pos, m, body) l /\ location_of transform [] m = loc.
  Proof.
    rewrite versions_filter, filter_In. unfold here. cbn [fst snd]. destruct (list_eq_dec _ (location_of transform [] m) loc); split; intros [A B]; split; congruence.
  Qed.

  Lemma versions_occ loc : Forall proper_name loc -> loc <> [] -> leaf transform l loc ->
    occurrences (build is) (written loc) (map the_row (versions_at transform l loc)).
  Proof.
    intros P N [Hb Hd]. pose proof (flat_backend transform strip remount archive l Ht) as B. fold is in B.
    pose proof (flat_sorted transform strip remount archive l Ht) as Srt. fold is in Srt.
    destruct (built_rows is B) as (B1 & B2 & B3 & B4).
    assert (S : StronglySorted (fun a b => r_offsetheader a < r_offsetheader b) (map the_row (versions_at transform l loc))).
    { rewrite versions_filter. apply sorted_sub. pose proof (positions_sorted archive l Ht) as Sp. clear - Sp. 
      induction Sp as [|x k S IH F]; constructor; [exact IH|]. rewrite Forall_forall in *. intros y Hy. specialize (F y Hy).
      unfold the_row. pose proof (file_row_fields transform [] 0 0 (fst (fst x)) (snd (fst x))) as (_ & _ & -> & _).
      pose proof (file_row_fields transform [] 0 0 (fst (fst y)) (snd (fst y))) as (_ & _ & -> & _). lia. }
    split; [|exact S]. apply NoDup_Permutation.
    - apply (sorted_nodup r_offsetheader). exact S.
    - apply NoDup_filter. apply NoDup_nth_error. intros i j Hi E. destruct (nth_error (build is) i) as [a|] eqn:Ei.
      + apply (B4 i j a a); auto.
      + apply nth_error_None in Ei. lia.
    - intros r. rewrite filter_In. unfold at_path. rewrite (denotes_written loc P). split.
      + intros I. apply in_map_iff in I as ([[pos m] body] & <- & I). apply versions_In in I as [I E]. unfold the_row. cbn [fst snd].
        pose proof (file_row_fields transform [] 0 0 pos m) as (F & _). split.
        * apply (seq_keeps is B Srt). unfold is. rewrite (flat_inserted transform strip remount archive l Ht). apply in_flat_map. exists (pos, m, body). split; [exact I|].
          unfold file_rows. destruct (char_eqb (m_type m) "D"); now left.
        * apply str_eqb_eq. etransitivity; [exact F|]. unfold location_of in E. now rewrite <- E.
      + intros [I F]. apply str_eqb_eq in F. destruct (B2 r I) as [(a & b & Q & _)|(below & pre & n & Ib & G & _)].
        * assert (I' : In r (inserted_rows is)) by (rewrite Q; apply in_or_app; right; now left).
          unfold is in I'. rewrite (flat_inserted transform strip remount archive l Ht) in I'. apply in_flat_map in I' as ([[pos m] body] & I' & Hx).
          pose proof (rows_of transform pos m r Hx) as (F' & _). rewrite F in F'. apply written_inj in F'; [|exact P|apply denotes_proper].
          specialize (Hd pos m body I' (eq_sym F')). unfold file_rows in Hx. destruct (char_eqb_spec (m_type m) "D"); [contradiction|].
          destruct Hx as [<-|[]]. apply in_map_iff. exists (pos, m, body). split; [reflexivity|]. now apply versions_In.
        * exfalso. destruct G as (G1 & _ & _ & _ & _ & _ & _ & _ & _ & _ & _ & rest & name & (M1 & M2 & M3)).
          unfold is in Ib. rewrite (flat_inserted transform strip remount archive l Ht) in Ib. apply in_flat_map in Ib as ([[pos m] body] & I' & Hx).
          pose proof (rows_of transform pos m below Hx) as (F' & _). rewrite F' in M3.
          pose proof M1 as M0. apply Forall_app in M0 as [M0 M0']. pose proof (Forall_inv M0') as Pn.
          assert (E : loc = pre ++ [n]).
          { apply written_inj; [exact P|apply Forall_app; split; [exact M0|now constructor]|]. rewrite <- F. exact G1. }
          apply written_inj in M3; [|apply denotes_proper|apply Forall_app; split; [exact M1|now constructor]].
          apply (Hb pos m body (rest ++ [name]) I'); [destruct rest; discriminate|]. rewrite M3, E. now rewrite <- !app_assoc.
  Qed.

  Lemma versions_numbered loc : Forall proper_name loc -> loc <> [] -> leaf transform l loc ->
    numbered (written loc) src (map (fun x => row_to_file_info (the_row x)) (versions_at transform l loc)).
  Proof.
    intros P N Hl. pose proof (versions_occ loc P N Hl) as O. pose proof (flat_backend transform strip remount archive l Ht) as B. fold is in B.
    destruct (built_rows is B) as (_ & _ & B3 & _). assert (D : denotes (written loc) <> []) by (now rewrite (denotes_written loc P)).
    split.
    - unfold src. cbn [s_versions tar_source]. rewrite (versions_spec now uid gid sh Hsh (build is) (written loc) B3 eq_refl D _ O). now rewrite !map_length.
    - intros v. unfold src. cbn [s_lookup tar_source]. rewrite (lookup_spec now uid gid sh Hsh (build is) (written loc) B3 eq_refl D _ O v).
      unfold pick. rewrite <- (map_map the_row row_to_file_info), <- (map_rev row_to_file_info). destruct (v <=? 0); symmetry; apply nth_error_map.
  Qed.

  Lemma tar_exists loc : loc <> [] -> Forall proper_name loc -> exists_at src loc <-> ~ nothing_at transform l loc.
  Proof.
    intros N P. split.
    - intros (i & E) H. unfold src in E. cbn [s_lookup tar_source] in E.
      unfold is in E. rewrite (flat_lookup_none transform strip remount archive l Ht now uid gid sh Hsh loc 0 P N H) in E. discriminate.
    - intros H. unfold exists_at, src. cbn [s_lookup tar_source]. destruct (lookup now uid gid sh (build is) (written loc) 0) as [i|] eqn:E; [now exists i|].
      exfalso. apply H. intros pos m body rest I El. pose proof (flat_backend transform strip remount archive l Ht) as B. fold is in B.
      destruct (member_inserted transform strip remount archive l Ht pos m body I) as (r & Ir & F). fold is in Ir.
      assert (Pm : Forall proper_name (location_of transform [] m)) by apply denotes_proper.
      destruct (exists_last (l := location_of transform [] m)) as (loc' & name & E'); [rewrite El; now destruct loc|].
      rewrite E' in F, Pm. apply Forall_app in Pm as [Pm1 Pm2]. pose proof (Forall_inv Pm2) as Pn.
      apply (proj2 (all_reached is sh sh now uid gid Hsh Hsh B r loc' name Ir ltac:(split; [exact Pm1|split; [exact Pn|exact F]])) loc rest); [|exact E].
      now rewrite <- E', El.
  Qed.

  Lemma tar_parents : parents_exist src.
  Proof.
    intros loc n N P H. apply Forall_app in P as P'. destruct P' as [P1 _]. apply tar_exists in H; [|destruct loc; discriminate|exact P].
    apply tar_exists; [exact N|exact P1|]. intros X. apply H. intros pos m body rest I E. rewrite <- app_assoc in E. now apply (X _ _ _ _ I E).
  Qed.

  Lemma good_plain steps : forall rest pre, Forall proper_name rest -> Forall proper_name pre ->
    (forall a b, rest = a ++ b -> a <> [] -> exists_at src (pre ++ a)) -> good_steps src (pre ++ rest) steps -> good_steps src pre (map Plain rest ++ steps).
  Proof.
    induction rest as [|n rest IH]; intros pre P P0 H G; cbn [map app]; [now rewrite app_nil_r in G|]. pose proof (Forall_inv P) as Pn.
    constructor; [exact Pn|apply (H [n] rest); [reflexivity|discriminate]|]. apply IH; [now apply Forall_inv_tail in P|apply Forall_app; split; [exact P0|now constructor]| |now rewrite <- app_assoc].
    intros a b E Na. rewrite <- app_assoc. apply (H (n :: a) b); [now rewrite E|discriminate].
  Qed.
  Lemma spelled_plain loc : flat_map spelled (map Plain loc) = loc.
  Proof. induction loc as [|n loc IH]; [reflexivity|]. cbn [map flat_map spelled app]. now rewrite IH. Qed.
  Lemma names_plain loc : map name_of (map Plain loc) = loc.
  Proof. induction loc as [|n loc IH]; [reflexivity|]. cbn [map name_of]. now rewrite IH. Qed.

  Lemma steps_plain loc n pos m body steps : In (pos, m, body) l -> location_of transform [] m = loc ++ [n] -> good_steps src loc steps -> good_steps src [] (map Plain loc ++ steps).
  Proof.
    intros I E G. assert (P : Forall proper_name (location_of transform [] m)) by apply denotes_proper. rewrite E in P. apply Forall_app in P as [P _].
    apply good_plain; [exact P|constructor| |exact G]. intros a b Ea Na. cbn [app].
    assert (Pa : Forall proper_name a) by (rewrite Ea in P; now apply Forall_app in P).
    apply tar_exists; [exact Na|exact Pa|]. intros X. apply (X pos m body (b ++ [n]) I). rewrite E, Ea. now rewrite <- app_assoc.
  Qed.

  Section At.
    Variables (loc : location) (n : str).
    Hypothesis Hleaf : leaf transform l (loc ++ [n]).
    Hypothesis Hfree : nothing_at transform l (loc ++ [n ++ $".versions"]).
    Hypothesis Hsome : versions_at transform l (loc ++ [n]) <> [].

    Lemma some_member : exists pos m body, In (pos, m, body) l /\ location_of transform [] m = loc ++ [n].
    Proof.
      destruct (versions_at transform l (loc ++ [n])) as [|[[pos m] body] k] eqn:E; [congruence|]. exists pos, m, body. apply versions_In. rewrite E. now left.
    Qed.
    Lemma some_proper : Forall proper_name loc /\ proper_name n.
    Proof.
      destruct some_member as (pos & m & body & _ & E). assert (P : Forall proper_name (location_of transform [] m)) by apply denotes_proper. rewrite E in P.
      apply Forall_app in P as [P1 P2]. apply Forall_inv in P2. auto.
    Qed.
    Lemma free_at : ~ exists_at src (loc ++ [n ++ $".versions"]).
    Proof.
      destruct some_proper as [P Pn]. intros X. apply tar_exists in X; [now apply X|destruct loc; discriminate|].
      apply Forall_app. split; [exact P|]. constructor; [now apply versions_proper|constructor].
    Qed.
    Lemma some_at : exists_at src (loc ++ [n]).
    Proof.
      destruct some_proper as [P Pn]. destruct some_member as (pos & m & body & I & E).
      apply tar_exists; [destruct loc; discriminate|apply Forall_app; split; [exact P|now constructor]|].
      intros X. apply (X pos m body [] I). now rewrite app_nil_r.
    Qed.

    Lemma version_served k : 1 <= k ->
      served_lookup now uid gid (build is) sh (written (loc ++ [n ++ $".versions"; py_str k])) =
      match nth_error (versions_at transform l (loc ++ [n])) (Z.to_nat (k - 1)) with
      | Some x => Ok (VersionOf (row_to_file_info (the_row x)))
      | None => Err (OSErr 2)
      end.
    Proof.
      intros Hk. destruct some_proper as [P Pn]. destruct some_member as (pos & m & body & I & E).
      assert (G : good_steps src [] (map Plain loc ++ [AtVersion n k])).
      { apply (steps_plain loc n pos m body); [exact I|exact E|]. apply GVersion; [exact Pn|exact some_at|exact free_at|constructor]. }
      pose proof (lookup_spelled src (fun _ => $"/") _ tar_parents G) as L.
      rewrite flat_map_app, map_app, last_last, spelled_plain, names_plain in L. cbn [flat_map spelled app map name_of version_of] in L.
      unfold served_lookup. fold src. rewrite L by (rewrite existsb_app; cbn; now rewrite orb_true_r).
      destruct (versions_numbered (loc ++ [n])) as [_ Hv]; [apply Forall_app; split; [exact P|now constructor]|destruct loc; discriminate|exact Hleaf|].
      rewrite Hv. unfold pick. destruct (Z.leb_spec k 0); [lia|]. rewrite nth_error_map. destruct (nth_error _ (Z.to_nat (k - 1))); reflexivity.
    Qed.

    Lemma folder_served : exists pos m body b, versions_at transform l (loc ++ [n]) = b ++ [(pos, m, body)] /\
      served_lookup now uid gid (build is) sh (written (loc ++ [n ++ $".versions"])) = Ok (VersionsFolder (m_mtime m) (m_uid m) (m_gid m)).
    Proof.
      destruct some_proper as [P Pn]. destruct some_member as (pos & m & body & I & E).
      destruct (exists_last Hsome) as (b & [[pos' m'] body'] & Eb). exists pos', m', body', b. split; [exact Eb|].
      assert (G : good_steps src [] (map Plain loc)).
      { rewrite <- (app_nil_r (map Plain loc)). apply (steps_plain loc n pos m body); [exact I|exact E|constructor]. }
      pose proof (lookup_folder src (fun _ => $"/") _ n tar_parents G Pn) as L. rewrite spelled_plain, names_plain in L. specialize (L free_at).
      unfold served_lookup. fold src. rewrite L.
      destruct (versions_numbered (loc ++ [n])) as [_ Hv]; [apply Forall_app; split; [exact P|now constructor]|destruct loc; discriminate|exact Hleaf|].
      rewrite Hv. unfold pick. cbn [Z.leb Z.compare]. rewrite <- map_rev, Eb, rev_app_distr. cbn [rev app map]. cbn [Z.opp Z.to_nat nth_error].
      pose proof (file_row_fields transform [] 0 0 pos' m') as (F1 & F2 & F3 & F4 & F5 & F6 & F7 & F8 & F9 & F10 & F11).
      unfold the_row. cbn [fst snd row_to_file_info fi_mtime fi_uid fi_gid]. now rewrite F6, F9, F10.
    Qed.

    Lemma folder_listed mode : ls now uid gid (build is) mode sh (written (loc ++ [n ++ $".versions"])) =
      Ok (($".", None) :: ($"..", None) :: map (fun k => (py_str (Z.of_nat k), None)) (seq 1 (length (versions_at transform l (loc ++ [n]))))).
    Proof.
      destruct some_proper as [P Pn]. destruct some_member as (pos & m & body & I & E).
      assert (Pv : Forall proper_name (loc ++ [n ++ $".versions"])).
      { apply Forall_app. split; [exact P|]. constructor; [now apply versions_proper|constructor]. }
      assert (G : good_steps src [] (map Plain loc)).
      { rewrite <- (app_nil_r (map Plain loc)). apply (steps_plain loc n pos m body); [exact I|exact E|constructor]. }
      pose proof (decode_folder src (map Plain loc) n G Pn) as Df. rewrite spelled_plain, names_plain in Df. specialize (Df free_at).
      assert (En0 : Index_Model.list_mode sh (build is) (written (loc ++ [n ++ $".versions"])) = None).
      { change (Index_Model.list_mode sh (build is)) with (Index_Proofs.listing r_mode sh (build is)).
        pose proof (listing_None r_mode sh Hsh (build is) (written (loc ++ [n ++ $".versions"])) eq_refl) as HN. apply HN.
        destruct (filter _ _) as [|r k] eqn:Q; [reflexivity|]. exfalso.
        assert (Ir : In r (filter (in_folder (written (loc ++ [n ++ $".versions"]))) (build is))) by (rewrite Q; now left). apply filter_In in Ir as [Ir F].
        unfold in_folder in F. rewrite denotes_written in F by exact Pv. apply str_eqb_eq in F.
        pose proof (flat_backend transform strip remount archive l Ht) as B. fold is in B. destruct (built_rows is B) as (_ & B2 & B3 & _).
        destruct (list_eq_dec ascii_dec (r_name r) []) as [En|En].
        - destruct (B2 r Ir) as [(a & b & Q' & _)|(below & pre & n' & _ & Gf & _)].
          + assert (I' : In r (inserted_rows is)) by (rewrite Q'; apply in_or_app; right; now left).
            destruct (B r I') as [S [[R1 _]|(loc' & name & Mr)]]; [rewrite R1 in F; symmetry in F; now destruct loc|].
            destruct (member_row_split r loc' name S Mr) as [_ S2]. destruct Mr as (_ & (X & _) & _). congruence.
          + destruct Gf as (G1 & _ & _ & _ & _ & _ & _ & _ & _ & _ & _ & rest & name & (M1 & M2 & M3)).
            apply Forall_app in M1 as [P0 Pr]. pose proof (Forall_inv Pr) as Pn'.
            destruct (member_row_split r pre n' (B3 r Ir) (conj P0 (conj Pn' G1))) as [_ S2]. destruct Pn' as (X & _). congruence.
        - destruct (proj1 (row_in_folder transform strip remount archive l Ht (loc ++ [n ++ $".versions"]) (r_name r) Pv En)) as (pos' & m' & body' & rest & Im & El).
          { exists r. auto. } apply (Hfree pos' m' body' (r_name r :: rest) Im). exact El. }
      unfold ls, front_readdir, ls_modes, v_list. fold src. unfold src at 1. cbn [s_list_mode tar_source]. rewrite En0, Df.
      destruct (versions_numbered (loc ++ [n])) as [Hc _]; [apply Forall_app; split; [exact P|now constructor]|destruct loc; discriminate|exact Hleaf|].
      rewrite Hc, map_length. rewrite <- seq_shift, !map_map. f_equal. f_equal. f_equal.
      assert (Fa : forall (X : list str), filter (fun n0 => negb (existsb (str_eqb n0) [])) X = X) by (clear; induction X as [|x X IH]; [reflexivity|cbn; f_equal; exact IH]).
      rewrite Fa, map_map. apply map_ext. intros a. f_equal. f_equal. lia.
    Qed.
  End At.

  (** What can be read after an open that finds a regular file. *)
  Lemma opened_reads {A} (render : block -> list A) pos m body path :
    (forall b, length (render b) = 512%nat) -> In (pos, m, body) l -> regular_file m body ->
    served_lookup now uid gid (build is) sh path = Ok (VersionOf (row_to_file_info (file_row transform [] 0 0 pos m))) ->
    let serve := serve now uid gid (build is) (bytes_of render archive) in
    let serve_all := serve_all now uid gid (build is) (bytes_of render archive) in
    forall st0, exists fh st, serve st0 (sh, KOpen path) = (RHandle fh, st) /\
    forall between, (forall sh', ~ In (sh', KRelease fh) between) ->
    forall sh' path' size offset, 0 <= offset -> 0 <= size ->
      fst (serve (serve_all st between) (sh', KRead path' size offset fh)) = RData (bytes_at (content_of render m body) offset size).
  Proof.
    intros Hr I Rf L serve serve_all st0.
    pose proof (file_row_fields transform [] 0 0 pos m) as (F1 & F2 & F3 & F4 & F5 & F6 & F7 & F8 & F9 & F10 & F11).
    set (r := file_row transform [] 0 0 pos m) in *. destruct Rf as (Ty & Sp & Fi & M).
    assert (O : open_member (row_to_file_info r) = Some (open_plain (r_offset r) (m_size m))).
    { unfold open_member. cbn [row_to_file_info fi_userdata u_issparse u_offset fi_size]. now rewrite F11, Sp, F5. }
    assert (Hl : lies_at archive body (r_offset r)).
    { rewrite F4. apply (lies_body archive archive 0 l); [exists [], []; rewrite app_nil_r; split; reflexivity|exact Ht|exact I]. }
    destruct (lies_content render Hr archive body (r_offset r) m Hl Fi) as [Ec Hi].
    set (files := the_file (bytes_of render archive)).
    assert (Ej : joined files (open_plain (r_offset r) (m_size m)) = content_of render m body).
    { unfold joined, open_plain. cbn [map concat]. rewrite app_nil_r. exact Ec. }
    assert (Hin : Forall (inside files) (open_plain (r_offset r) (m_size m))) by (constructor; [exact Hi|constructor]).
    destruct (C01_stenciled_read_at A files _ 0 0 (fun _ => 0) Hin ltac:(lia) ltac:(lia)) as (s & _ & _ & _ & E0 & _).
    set (fh := k_last st0 + 1).
    exists fh, (mkK fh (dset Z.eqb (k_open st0) fh (Some s)) (k_pos st0)). split.
    { unfold serve, Served_Model.serve. cbn [fst snd]. rewrite L, O, E0. reflexivity. }
    intros between Hb sh' path' size offset Ho Hs.
    assert (Hf : holds_file fh s (mkK fh (dset Z.eqb (k_open st0) fh (Some s)) (k_pos st0))).
    { split; [cbn; lia|]. cbn [k_open]. rewrite (dget_dset_same Z.eqb Z.eqb_spec). exists (sf_offset s). now destruct s. }
    apply (serve_all_holds now uid gid (build is) (bytes_of render archive) fh s between _ ) in Hf; [|exact Hb].
    fold serve_all in Hf. set (st1 := serve_all _ between) in *. destruct Hf as [_ (o & D)].
    unfold serve, Served_Model.serve. cbn [fst snd]. rewrite D.
    destruct (C01_stenciled_read_at A files _ offset size (k_pos st1) Hin Ho ltac:(lia)) as (s' & s1 & s2 & pos' & E1 & Sk & Rd & _).
    assert (s' = s) by congruence. subst s'.
    change (sf_seek (set_offset s o) offset SEEK_SET) with (sf_seek s offset SEEK_SET). rewrite Sk. fold files. rewrite Rd. cbn [fst].
    rewrite Ej. destruct (Z.eqb_spec size (-1)); [lia|reflexivity].
  Qed.
End OldVer.
