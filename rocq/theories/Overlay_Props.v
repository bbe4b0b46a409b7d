(** C30, C31, C47: the write overlay. *)
From Coq Require Import Ascii String.
From Verif Require Import PyBase PyDict PyStr Path_Spec Overlay_Model Overlay_Spec Overlay_Proofs Overlay_Steps Overlay_Results.

(** ** Archives given by a table, for the examples *)

Definition table_lower {A} (t : list (location * @lnode A)) (p : location) : option lnode := dget loc_eqb t p.

Definition table_names {A} (t : list (location * @lnode A)) (p : location) : list str :=
  flat_map (fun e => match rev (fst e) with
                     | [] => []
                     | n :: r => if loc_eqb p (rev r) then [n] else []
                     end) t.

Definition table_ok {A} (t : list (location * @lnode A)) : bool :=
  forallb (fun e => match rev (fst e) with
                    | [] => false
                    | [_] => true
                    | _ :: r => match table_lower t (rev r) with Some LDir => true | _ => false end
                    end) t.

Lemma table_tree {A} (t : list (location * @lnode A)) :
  table_ok t = true -> tree_like LDir (table_lower t) (table_names t).
Proof.
  intros H. unfold table_ok in H. rewrite forallb_forall in H. split.
  - intros p n. unfold table_names, table_lower. rewrite in_flat_map. split.
    + intros ([q v] & I & J); cbn [fst] in J. destruct (rev q) as [|m r] eqn:E; [destruct J|].
      destruct (loc_eqb_spec p (rev r)) as [Ep|]; [|destruct J]. destruct J as [->|[]].
      apply (rev_app_inv q p n r E) in Ep. subst q.
      intros Hn. apply (dget_None loc_eqb loc_eqb_spec) in Hn. apply Hn. apply (in_map fst) in I. exact I.
    + intros Hn. destruct (dget loc_eqb t (p ++ [n])) as [v|] eqn:E; [|congruence].
      apply (dget_Some_In loc_eqb loc_eqb_spec) in E. exists (p ++ [n], v); split; [exact E|].
      cbn [fst]. rewrite rev_app_distr; cbn. rewrite rev_involutive, loc_eqb_refl. now left.
  - intros p n Hn. unfold table_lower in *. destruct (dget loc_eqb t (p ++ [n])) as [v|] eqn:E; [|congruence].
    apply (dget_Some_In loc_eqb loc_eqb_spec) in E. specialize (H _ E). cbn [fst] in H.
    rewrite rev_app_distr in H; cbn [app rev] in H. destruct (rev p) as [|m r] eqn:R.
    + left. rewrite <- (rev_involutive p), R. reflexivity.
    + right. rewrite <- (rev_involutive p), R.
      unfold table_lower in H. destruct (dget loc_eqb t (rev (m :: r))) as [[| |]|]; congruence.
Qed.

(** A small archive: the file /a, the folder /d with a file, a link. *)
Definition sample : list (location * @lnode nat) :=
  [([$"a"], LFile [1; 2; 3]); ([$"d"], LDir); ([$"d"; $"x"], LFile [7; 8]); ([$"l"], LLink $"a")].

Lemma sample_tree : tree_like LDir (table_lower sample) (table_names sample).
Proof. apply table_tree. vm_compute. reflexivity. Qed.

Definition plain_attributes (_ : @ostate nat) (_ : location) : Z * Z * Z * Z := (5, 420, 1000, 1000)%Z.

Notation play := (run 0 (table_lower sample) (table_names sample) plain_attributes fresh_overlay).
Notation call st o := (step 0 (table_lower sample) (table_names sample) plain_attributes st o).
Notation seen := (visible (table_lower sample)).

Section Claims.
  Context {A : Type} (zero : A).
  Variable lower : location -> option (@lnode A).
  Variable lower_names : location -> list str.
  Variable attributes : @ostate A -> location -> Z * Z * Z * Z.
  Hypothesis low : tree_like LDir lower lower_names.

  Notation run := (run zero lower lower_names attributes).
  Notation step := (step zero lower lower_names attributes).
  Notation visible := (visible lower).

  Lemma reachable h : well_kept (run fresh_overlay h).
  Proof. apply run_kept; [exact low|apply fresh_kept]. Qed.

  (** C30: a call changes nothing but the path it is about.  In particular everything of the archives that no call of a
      history names is shown as it is in the archives. *)
  Theorem C30_only_named_paths h o q :
    ~ may_change (run fresh_overlay h) o q ->
    visible (snd (step (run fresh_overlay h) o)) q = visible (run fresh_overlay h) q.
  Proof. intros N. apply step_frame; auto. apply reachable. Qed.

  (** C30: paths no call ever named show the archive. *)
  Theorem C30_untouched h q : q <> [] ->
    (forall h1 o h2, h = h1 ++ o :: h2 -> ~ may_change (run fresh_overlay h1) o q) ->
    visible (run fresh_overlay h) q = option_map entry_of_lower (lower q).
  Proof.
    intros Nq. induction h as [|o h IH] using rev_ind; intros N.
    - cbn. destruct q; [congruence|reflexivity].
    - unfold Overlay_Model.run. rewrite fold_left_app. cbn [fold_left].
      change (fold_left (fun s o => snd (step s o)) h fresh_overlay) with (run fresh_overlay h).
      rewrite C30_only_named_paths; [|exact (N h o [] eq_refl)]. apply IH.
      intros h1 o1 h2 ->. apply (N h1 o1 (h2 ++ [o])). now rewrite <- app_assoc.
  Qed.

  (** C30: what has been removed is gone and stays gone until a call creates it again. *)
  Theorem C30_removed_stays_gone h1 h2 p st1 :
    unlink lower (run fresh_overlay h1) p = (Ok tt, st1) \/
    rmdir lower lower_names (run fresh_overlay h1) p = (Ok tt, st1) ->
    (forall o, In o h2 -> ~ may_create o p) ->
    visible (run st1 h2) p = None.
  Proof.
    intros [H|H] N.
    - apply hidden_stays_run; auto; [|exact (unlink_hides lower _ _ _ H)].
      pose proof (step_kept zero lower lower_names attributes low _ (OpUnlink p) (reachable h1)) as K.
      cbn [Overlay_Model.step] in K. rewrite H in K. exact K.
    - apply hidden_stays_run; auto; [|exact (rmdir_hides lower lower_names _ _ _ H)].
      pose proof (step_kept zero lower lower_names attributes low _ (OpRmdir p) (reachable h1)) as K.
      cbn [Overlay_Model.step] in K. rewrite H in K. exact K.
  Qed.

  (** C30: only folders that show nothing can be removed. *)
  Theorem C30_rmdir_only_empty h p st1 :
    rmdir lower lower_names (run fresh_overlay h) p = (Ok tt, st1) ->
    forall n, visible (run fresh_overlay h) (p ++ [n]) = None.
  Proof. apply rmdir_empty; auto. apply reachable. Qed.

  (** C30: a created path exists, with no content, whatever happened to it before. *)
  Theorem C30_create h p m i st1 : create lower (run fresh_overlay h) p m = (Ok i, st1) ->
    visible st1 p = Some (EFile []).
  Proof. intros H. exact (proj1 (create_shows lower lower_names attributes low _ _ _ _ _ (reachable h) H)). Qed.

  Theorem C30_mkdir h p m st1 : mkdir lower (run fresh_overlay h) p m = (Ok tt, st1) -> visible st1 p = Some EDir.
  Proof. apply (mkdir_shows lower lower_names); auto. apply reachable. Qed.

  (** C30, what holds of links and nodes: the full statement would not need [is_deleted .. = false]; see
      [C30_recreate_refuted]. *)
  Theorem C30_links_partial h p st1 :
    is_deleted (run fresh_overlay h) p = false ->
    (mknod lower (run fresh_overlay h) p = (Ok tt, st1) -> visible st1 p = Some (EFile [])) /\
    (forall t, symlink (run fresh_overlay h) p t = (Ok tt, st1) -> visible st1 p = Some (ELink t)) /\
    (forall q, link lower (run fresh_overlay h) p q = (Ok tt, st1) ->
               visible st1 p = union_lookup lower (run fresh_overlay h) q).
  Proof.
    intros D. split; [|split].
    - intros H. exact (mknod_shows lower lower_names low _ _ _ (reachable h) H D).
    - intros t H. exact (symlink_shows lower _ _ _ _ H D).
    - intros q H. exact (link_shows lower _ _ _ _ H D).
  Qed.

  (** C30: a renamed path has the content of the old one. *)
  Theorem C30_rename_moves h old new st1 e : old <> new ->
    rename lower attributes (run fresh_overlay h) old new = (Ok tt, st1) ->
    visible (run fresh_overlay h) old = Some e ->
    visible st1 new = Some e.
  Proof. intros Ne H V. apply (rename_shows lower lower_names attributes low _ _ _ _ _ H (reachable h) Ne V). Qed.

  (** C30: the old path is gone, provided it exists in only one of archive and overlay folder.  The full statement
      without the last hypothesis is false: [C30_rename_refuted]. *)
  Theorem C30_rename_gone_partial h old new st1 : old <> new ->
    rename lower attributes (run fresh_overlay h) old new = (Ok tt, st1) ->
    oget (o_fs (run fresh_overlay h)) old = None \/ lower old = None ->
    visible st1 old = None.
  Proof. intros Ne H O. apply (rename_hides lower lower_names attributes low _ _ _ _ H (reachable h) Ne O). Qed.

  (** C30: renaming a folder moves everything below it, provided the archives have nothing at either path and nothing below
      the new path has been deleted.  Without these it is false: [C30_rename_folder_refuted]. *)
  Theorem C30_rename_folder_partial h old new st1 rest : old <> new ->
    rename lower attributes (run fresh_overlay h) old new = (Ok tt, st1) ->
    visible (run fresh_overlay h) old = Some EDir ->
    (forall p, at_or_below old p \/ at_or_below new p -> lower p = None /\ is_deleted (run fresh_overlay h) p = false) ->
    visible st1 (new ++ rest) = visible (run fresh_overlay h) (old ++ rest).
  Proof.
    intros Ne H V F. destruct rest as [|x rest].
    - rewrite !app_nil_r, V. exact (C30_rename_moves h old new st1 EDir Ne H V).
    - apply (rename_folder lower lower_names attributes low _ _ _ _ _ H (reachable h) Ne); auto; try discriminate.
      + apply F. left; exists []; now rewrite app_nil_r.
      + apply F. left; now exists (x :: rest).
      + apply F. left; now exists (x :: rest).
  Qed.

  (** C30: a folder listing shows exactly what exists in the folder. *)
  Theorem C30_listing h p n : In n (readdir lower_names (run fresh_overlay h) p) <-> visible (run fresh_overlay h) (p ++ [n]) <> None.
  Proof. apply readdir_spec; auto. apply reachable. Qed.

  (** C31: opening a file for writing and writing to it changes exactly the written range of its current content, whether the
      file comes from an archive or from the overlay. *)
  Theorem C31_open_and_write h p i st1 data offset st2 :
    is_deleted (run fresh_overlay h) p = false ->
    open_overlay lower (run fresh_overlay h) p true = (Ok i, st1) ->
    write zero st1 i data offset = (Ok tt, st2) ->
    exists c c', visible (run fresh_overlay h) p = Some (EFile c) /\ visible st2 p = Some (EFile c') /\
                 after_write zero c offset data c'.
  Proof.
    intros D H Wr.
    destruct (open_write zero lower lower_names attributes low _ _ _ _ H (reachable h) D) as (V1 & O & Vc).
    assert (Np : p <> []).
    { intros ->. unfold Overlay_Model.visible in Vc. destruct (is_deleted _ []); discriminate. }
    assert (D1 : is_deleted st1 p = false).
    { destruct (is_deleted st1 p) eqn:E; [|reflexivity]. rewrite <- V1 in Vc.
      unfold Overlay_Model.visible in Vc at 1. rewrite E in Vc. discriminate. }
    destruct (write_shows zero lower _ _ _ _ _ _ Wr Np O D1) as (Va & Vb).
    exists (content_of st1 i), (spliced zero (content_of st1 i) offset data).
    split; [exact Vc|]. split; [exact Vb|]. apply spliced_spec.
  Qed.

  (** C31: a write through an open descriptor. *)
  Theorem C31_write h p i data offset st1 :
    p <> [] -> oget (o_fs (run fresh_overlay h)) p = Some (OFile i) -> is_deleted (run fresh_overlay h) p = false ->
    write zero (run fresh_overlay h) i data offset = (Ok tt, st1) ->
    exists c c', visible (run fresh_overlay h) p = Some (EFile c) /\ visible st1 p = Some (EFile c') /\
                 after_write zero c offset data c'.
  Proof.
    intros Np O D Wr. destruct (write_shows zero lower _ _ _ _ _ _ Wr Np O D) as (Va & Vb).
    eexists; eexists; split; [exact Va|]. split; [exact Vb|]. apply spliced_spec.
  Qed.

  (** C31: truncating a file that only the archives have cuts its content or extends it with zeros.  For a file that is
      already in the overlay folder the statement is false: [C31_truncate_refuted]. *)
  Theorem C31_truncate_partial h p n st1 c :
    truncate zero lower (run fresh_overlay h) p n = (Ok tt, st1) ->
    visible (run fresh_overlay h) p = Some (EFile c) ->
    oget (o_fs (run fresh_overlay h)) p = None ->
    exists c', visible st1 p = Some (EFile c') /\ after_truncate zero c n c'.
  Proof.
    intros H V O. exists (resized zero n c). split; [|apply resized_spec].
    exact (truncate_shows zero lower lower_names attributes low _ _ _ _ _ H (reachable h) V O).
  Qed.

  (** C31: the length is right in any case. *)
  Theorem C31_truncate_length h p n st1 c :
    truncate zero lower (run fresh_overlay h) p n = (Ok tt, st1) ->
    visible st1 p = Some (EFile c) -> length c = n.
  Proof. intros H. exact (truncate_lengths zero lower _ _ _ _ _ H (reachable h)). Qed.

  (** C47: changing attributes changes exactly the named attributes of the named path, and nothing else about any path. *)
  Theorem C47_attributes h p c st1 q :
    set_attributes lower attributes (run fresh_overlay h) p c = (Ok tt, st1) ->
    (forall q, attributes st1 q = attributes (run fresh_overlay h) q) ->
    visible st1 q = visible (run fresh_overlay h) q /\
    forall t m u g, getattr lower attributes (run fresh_overlay h) q = Some (t, m, u, g) ->
    getattr lower attributes st1 q =
      Some (if loc_eqb q p
            then match c with
                 | SetMode m' => (t, m', u, g)
                 | SetOwner u' g' => (t, m, match u' with Some x => x | None => u end,
                                            match g' with Some x => x | None => g end)
                 | SetMtime t' => (t', m, u, g)
                 end
            else (t, m, u, g)).
  Proof.
    intros H At. split.
    - pose proof (step_frame zero lower lower_names attributes low _ (OpAttributes p c) q (reachable h) (fun x => x)) as V.
      cbn [Overlay_Model.step] in V. rewrite H in V. exact V.
    - intros t m u g G.
      exact (attributes_shown zero lower lower_names attributes low _ _ _ _ H At q _ G (reachable h)).
  Qed.
End Claims.

Print Assumptions C30_only_named_paths.
Print Assumptions C30_untouched.
Print Assumptions C30_removed_stays_gone.
Print Assumptions C30_rmdir_only_empty.
Print Assumptions C30_create.
Print Assumptions C30_mkdir.
Print Assumptions C30_links_partial.
Print Assumptions C30_rename_moves.
Print Assumptions C30_rename_gone_partial.
Print Assumptions C30_rename_folder_partial.
Print Assumptions C30_listing.
Print Assumptions C31_open_and_write.
Print Assumptions C31_write.
Print Assumptions C31_truncate_partial.
Print Assumptions C31_truncate_length.
Print Assumptions C47_attributes.

(** ** Where the full statements fail *)

(** C30: after a write to a file of an archive (which copies it into the overlay folder), renaming it succeeds, and the old
    path shows the file of the archive again. *)
Theorem C30_rename_refuted : exists (h : list (@op nat)) old new st1,
  old <> new /\ rename (table_lower sample) plain_attributes (play h) old new = (Ok tt, st1) /\
  seen (play h) old = Some (EFile [9; 2; 3]) /\ seen st1 new = Some (EFile [9; 2; 3]) /\
  seen st1 old = Some (EFile [1; 2; 3]).
Proof.
  exists [OpOpenWrite [$"a"]; OpWrite 0 [9] 0], [$"a"], [$"b"].
  exists (snd (call (play [OpOpenWrite [$"a"]; OpWrite 0 [9] 0]) (OpRename [$"a"] [$"b"]))).
  split; [discriminate|]. vm_compute. auto.
Qed.

(** C30: a symbolic link created where a file of the archive has been deleted does not show, although the call succeeds.
    The same holds for hard links and nodes. *)
Theorem C30_recreate_refuted : exists (h : list (@op nat)) p,
  (exists st1, symlink (play h) p $"t" = (Ok tt, st1) /\ seen st1 p = None) /\
  (exists st1, mknod (table_lower sample) (play h) p = (Ok tt, st1) /\ seen st1 p = None) /\
  (exists st1, link (table_lower sample) (play h) p [$"n"] = (Ok tt, st1) /\ seen st1 p = None).
Proof.
  exists [OpCreate [$"n"] 420%Z; OpUnlink [$"a"]], [$"a"].
  set (h := [OpCreate [$"n"] 420%Z; OpUnlink [$"a"]]).
  split; [|split].
  - exists (snd (call (play h) (OpSymlink [$"a"] $"t"))). vm_compute. auto.
  - exists (snd (call (play h) (OpMknod [$"a"]))). vm_compute. auto.
  - exists (snd (call (play h) (OpLink [$"a"] [$"n"]))). vm_compute. auto.
Qed.

(** C30: renaming a folder of an archive that also has something in the overlay leaves the files of the archive behind. *)
Theorem C30_rename_folder_refuted : exists (h : list (@op nat)) st1,
  rename (table_lower sample) plain_attributes (play h) [$"d"] [$"e"] = (Ok tt, st1) /\
  seen (play h) [$"d"; $"x"] = Some (EFile [7; 8]) /\
  seen st1 [$"e"] = Some EDir /\ seen st1 [$"e"; $"x"] = None /\ seen st1 [$"d"; $"x"] = Some (EFile [7; 8]).
Proof.
  exists [OpCreate [$"d"; $"y"] 420%Z].
  exists (snd (call (play [OpCreate [$"d"; $"y"] 420%Z]) (OpRename [$"d"] [$"e"]))). vm_compute. auto.
Qed.

(** C30: renaming onto a file with several names overwrites the other names as well. *)
Theorem C30_rename_over_link_refuted : exists (h : list (@op nat)) st1,
  rename (table_lower sample) plain_attributes (play h) [$"a"] [$"n"] = (Ok tt, st1) /\
  seen (play h) [$"m"] = Some (EFile [5]) /\ seen st1 [$"m"] = Some (EFile [1; 2; 3]).
Proof.
  exists [OpCreate [$"n"] 420%Z; OpWrite 0 [5] 0; OpLink [$"m"] [$"n"]].
  exists (snd (call (play [OpCreate [$"n"] 420%Z; OpWrite 0 [5] 0; OpLink [$"m"] [$"n"]]) (OpRename [$"a"] [$"n"]))).
  vm_compute. auto.
Qed.

(** C30: a symbolic link cannot be created in a folder that only the archives have. *)
Theorem C30_symlink_parent_refuted : exists (h : list (@op nat)) p e,
  seen (play h) (removelast p) = Some EDir /\ seen (play h) p = None /\ fst (symlink (play h) p $"t") = Err e.
Proof. exists [], [$"d"; $"s"], ENOENT. vm_compute. auto. Qed.

(** C31: truncating a file that is already in the overlay folder loses its content. *)
Theorem C31_truncate_refuted : exists (h : list (@op nat)) p n st1,
  truncate 0 (table_lower sample) (play h) p n = (Ok tt, st1) /\
  seen (play h) p = Some (EFile [4; 5; 6]) /\ n = 2 /\ seen st1 p = Some (EFile [0; 0]).
Proof.
  exists [OpCreate [$"n"] 420%Z; OpWrite 0 [4; 5; 6] 0], [$"n"], 2.
  exists (snd (call (play [OpCreate [$"n"] 420%Z; OpWrite 0 [4; 5; 6] 0]) (OpTruncate [$"n"] 2))). vm_compute. auto.
Qed.

(** C47: chown with both ids -1 is an error instead of no change. *)
Theorem C47_chown_refuted : exists (h : list (@op nat)) p,
  seen (play h) p <> None /\
  fst (set_attributes (table_lower sample) plain_attributes (play h) p (SetOwner None None)) = Err ValueError.
Proof. exists [], [$"a"]. vm_compute. split; [discriminate|reflexivity]. Qed.

Print Assumptions C30_rename_refuted.
Print Assumptions C30_recreate_refuted.
Print Assumptions C30_rename_folder_refuted.
Print Assumptions C30_rename_over_link_refuted.
Print Assumptions C30_symlink_parent_refuted.
Print Assumptions C31_truncate_refuted.
Print Assumptions C47_chown_refuted.

(** ** The hypotheses are met *)

Definition busy : list (@op nat) :=
  [OpCreate [$"d"; $"y"] 420%Z; OpWrite 0 [4; 4] 1; OpUnlink [$"a"]; OpUnlink [$"d"; $"x"]; OpUnlink [$"d"; $"y"];
   OpRmdir [$"d"]; OpMkdir [$"d"] 16877%Z; OpMkdir [$"f"] 16877%Z; OpCreate [$"f"; $"z"] 420%Z; OpWrite 1 [3] 0].

Example busy_shows :
  seen (play busy) [$"a"] = None /\ seen (play busy) [$"d"] = Some EDir /\ seen (play busy) [$"d"; $"x"] = None /\
  seen (play busy) [$"f"; $"z"] = Some (EFile [3]) /\ seen (play busy) [$"l"] = Some (ELink $"a").
Proof. vm_compute. auto. Qed.

Example busy_untouched : forall h1 o h2, busy = h1 ++ o :: h2 -> ~ may_change (play h1) o [$"l"].
Proof.
  intros h1 o h2 E. unfold busy in E.
  repeat (destruct h1 as [|? h1]; cbn [app] in E;
    [injection E as <- _; cbn [may_change];
     lazymatch goal with
     | |- ~ (_ \/ _) => intros [X|(i & X & Y)]; [discriminate X|vm_compute in Y; discriminate Y]
     | |- _ => vm_compute; discriminate
     end
    |injection E as <- E]).
  destruct h1; discriminate.
Qed.

Example removed_example : exists st1,
  rmdir (table_lower sample) (table_names sample) (play (firstn 5 busy)) [$"d"] = (Ok tt, st1) /\
  forall o : @op nat, In o [OpCreate [$"a"] 1%Z; OpRename [$"l"] [$"q"]; OpTruncate [$"d"] 3] -> ~ may_create o [$"d"].
Proof.
  exists (snd (call (play (firstn 5 busy)) (OpRmdir [$"d"]))).
  split; [vm_compute; reflexivity|]. intros o [<-|[<-|[<-|[]]]]; cbn; try discriminate; try tauto.
  intros [r E]; discriminate.
Qed.

Example rename_example : exists st1,
  rename (table_lower sample) plain_attributes (play busy) [$"f"] [$"g"] = (Ok tt, st1) /\
  (forall p, at_or_below [$"f"] p \/ at_or_below [$"g"] p ->
     table_lower sample p = None /\ is_deleted (play busy) p = false) /\
  seen st1 [$"g"; $"z"] = Some (EFile [3]).
Proof.
  exists (snd (call (play busy) (OpRename [$"f"] [$"g"]))).
  split; [vm_compute; reflexivity|]. split; [|vm_compute; reflexivity].
  assert (forall p x, at_or_below [x] p -> p <> [$"a"] -> p <> [$"l"] -> p <> [$"d"] -> p <> [$"d"; $"x"] ->
     table_lower sample p = None) as T.
  { intros p x _ N1 N2 N3 N4. unfold table_lower, sample, dget. now rewrite !loc_eqb_neq. }
  assert (forall p, p <> [$"a"] -> p <> [$"d"; $"x"] -> is_deleted (play busy) p = false) as D.
  { intros p N1 N2. unfold is_deleted.
    assert (o_rows (play busy) = [([$"a"], mkRow None None None None true); ([$"d"; $"x"], mkRow None None None None true);
      ([$"d"], mkRow None None None None false); ([$"f"], mkRow None (Some 16877%Z) None None false);
      ([$"f"; $"z"], mkRow None (Some 420%Z) None None false)]) as -> by (vm_compute; reflexivity).
    unfold rget, dget. rewrite (loc_eqb_neq p [$"a"]), (loc_eqb_neq p [$"d"; $"x"]) by assumption.
    now destruct (loc_eqb p [$"d"]), (loc_eqb p [$"f"]), (loc_eqb p [$"f"; $"z"]). }
  intros p [B|B]; (split; [eapply T; [exact B| | | |]|apply D]); destruct B as [r ->]; discriminate.
Qed.

Example open_write_example : exists i st1 st2,
  open_overlay (table_lower sample) (play []) [$"d"; $"x"] true = (Ok i, st1) /\
  write 0 st1 i [5; 6] 4 = (Ok tt, st2) /\ seen st2 [$"d"; $"x"] = Some (EFile [7; 8; 0; 0; 5; 6]).
Proof.
  exists 0, (snd (call (play []) (OpOpenWrite [$"d"; $"x"]))).
  exists (snd (call (snd (call (play []) (OpOpenWrite [$"d"; $"x"]))) (OpWrite 0 [5; 6] 4))). vm_compute. auto.
Qed.

Example truncate_example : exists st1,
  truncate 0 (table_lower sample) (play []) [$"a"] 2 = (Ok tt, st1) /\ seen st1 [$"a"] = Some (EFile [1; 2]).
Proof. exists (snd (call (play []) (OpTruncate [$"a"] 2))). vm_compute. auto. Qed.

Example attributes_example : exists st1,
  set_attributes (table_lower sample) plain_attributes (play busy) [$"l"] (SetMode 511%Z) = (Ok tt, st1) /\
  getattr (table_lower sample) plain_attributes st1 [$"l"] = Some (5, 511, 1000, 1000)%Z.
Proof. exists (snd (call (play busy) (OpAttributes [$"l"] (SetMode 511%Z)))). vm_compute. auto. Qed.

Example links_example : exists st1,
  link (table_lower sample) (play busy) [$"k"] [$"f"; $"z"] = (Ok tt, st1) /\ is_deleted (play busy) [$"k"] = false /\
  seen st1 [$"k"] = Some (EFile [3]).
Proof. exists (snd (call (play busy) (OpLink [$"k"] [$"f"; $"z"]))). vm_compute. auto. Qed.
