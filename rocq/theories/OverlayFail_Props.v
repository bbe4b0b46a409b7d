(** C131: when removing and renaming fail on a writable mount, and that they do not fail otherwise. *)
From Coq Require Import Ascii String.
From Verif Require Import PyBase PyDict PyStr Path_Spec Overlay_Model Overlay_Spec Overlay_Proofs Overlay_Steps Overlay_Results Overlay_Props.

Section Claims.
  Context {A : Type} (zero : A).
  Variable lower : location -> option (@lnode A).
  Variable lower_names : location -> list str.
  Variable attributes : @ostate A -> location -> Z * Z * Z * Z.
  Hypothesis low : tree_like LDir lower lower_names.

  Notation run := (run zero lower lower_names attributes).
  Notation visible := (visible lower).

  Lemma unseen st p : visible st p = None -> negb (union_exists lower st p) || is_deleted st p = true.
  Proof. unfold Overlay_Model.visible, union_exists. destruct (is_deleted st p); [intros _; apply orb_true_r|]. now intros ->. Qed.
  Lemma seen_there st p e : visible st p = Some e -> negb (union_exists lower st p) || is_deleted st p = false /\ union_lookup lower st p = Some e.
  Proof. unfold Overlay_Model.visible, union_exists. destruct (is_deleted st p); [discriminate|]. now intros ->. Qed.

  (** C131: removing or renaming what is not there fails with ENOENT = 2, and no path shows anything else afterwards. *)
  Theorem C131_absent h p new : let st := run fresh_overlay h in visible st p = None ->
    fst (unlink lower st p) = Err (OSErr 2) /\ fst (rmdir lower lower_names st p) = Err (OSErr 2) /\
    fst (rename lower attributes st p new) = Err (OSErr 2) /\
    forall q, visible (snd (unlink lower st p)) q = visible st q /\ visible (snd (rmdir lower lower_names st p)) q = visible st q /\
              visible (snd (rename lower attributes st p new)) q = visible st q.
  Proof.
    intros st V. pose proof (unseen st p V) as U. unfold unlink, rmdir, rename. rewrite U. cbn [fst snd]. repeat split; try reflexivity.
    destruct (loc_eqb_spec q p) as [-> |N]; [rewrite mark_hides; congruence|now apply mark_other].
  Qed.

  (** C131: removing a folder that shows something fails with ENOTEMPTY = 39 and changes nothing at all. *)
  Theorem C131_not_empty h p n : let st := run fresh_overlay h in visible st p <> None -> visible st (p ++ [n]) <> None ->
    rmdir lower lower_names st p = (Err (OSErr 39), st).
  Proof.
    intros st V Vn. pose proof (reachable zero lower lower_names attributes low h) as W. fold st in W.
    destruct (visible st p) as [e|] eqn:E; [|congruence]. destruct (seen_there st p e E) as [U _]. unfold rmdir. rewrite U.
    destruct (subset (union_names lower_names st p) (list_deleted st p)) eqn:S; [exfalso|reflexivity].
    destruct (visible st (p ++ [n])) as [e'|] eqn:E'; [|congruence]. destruct (seen_there st (p ++ [n]) e' E') as [U' L'].
    unfold subset in S. rewrite forallb_forall in S.
    assert (In n (union_names lower_names st p)) as I by (apply (In_union_names lower lower_names low); congruence).
    specialize (S n I). apply existsb_exists in S as (x & Ix & Ex). apply str_eqb_eq in Ex; subst x.
    apply (In_list_deleted st p n (proj1 (proj2 W))) in Ix. rewrite Ix, orb_true_r in U'. discriminate.
  Qed.

  (** C131: a file or link that is shown can be removed, and is gone afterwards. *)
  Theorem C131_file_removed h p e : let st := run fresh_overlay h in visible st p = Some e -> e <> EDir ->
    exists st1, unlink lower st p = (Ok tt, st1) /\ visible st1 p = None.
  Proof.
    intros st V Ne. destruct (seen_there st p e V) as [U L].
    assert (exists st1, unlink lower st p = (Ok tt, st1)) as (st1 & H); [|exists st1; split; [exact H|exact (unlink_hides lower _ _ _ H)]].
    unfold unlink. rewrite U. unfold in_overlay, os_unlink. unfold union_lookup in L. destruct p as [|a p]; [congruence|].
    destruct (oget (o_fs st) (a :: p)) as [[|i|t]|] eqn:O; eauto. cbn in L. congruence.
  Qed.

  (** C131: a folder that shows nothing can be removed, and is gone afterwards, provided the overlay folder has nothing in it.  The
      full statement does not need this; see [C131_empty_folder_refuted]. *)
  Theorem C131_empty_folder_partial h p : let st := run fresh_overlay h in p <> [] -> visible st p = Some EDir ->
    (forall n, visible st (p ++ [n]) = None) -> (forall n, oget (o_fs st) (p ++ [n]) = None) ->
    exists st1, rmdir lower lower_names st p = (Ok tt, st1) /\ visible st1 p = None.
  Proof.
    intros st Np V Vn On. pose proof (reachable zero lower lower_names attributes low h) as W. fold st in W. destruct (seen_there st p _ V) as [U L].
    assert (exists st1, rmdir lower lower_names st p = (Ok tt, st1)) as (st1 & H); [|exists st1; split; [exact H|exact (rmdir_hides lower lower_names _ _ _ H)]].
    unfold rmdir. rewrite U. assert (S : subset (union_names lower_names st p) (list_deleted st p) = true).
    { unfold subset. apply forallb_forall. intros n I. apply existsb_exists. exists n. split; [|apply str_eqb_refl].
      apply (In_list_deleted st p n (proj1 (proj2 W))). apply (In_union_names lower lower_names low) in I. specialize (Vn n).
      unfold Overlay_Model.visible in Vn. destruct (is_deleted st (p ++ [n])); [reflexivity|congruence]. }
    rewrite S. cbn [negb]. unfold in_overlay, os_rmdir. unfold union_lookup in L. destruct p as [|a p]; [congruence|].
    assert (overlay_names (o_fs st) (a :: p) = []) as N0.
    { destruct (overlay_names (o_fs st) (a :: p)) as [|n l] eqn:E; [reflexivity|exfalso].
      assert (In n (overlay_names (o_fs st) (a :: p))) as I by (rewrite E; now left). apply In_overlay_names in I. now rewrite On in I. }
    rewrite N0. destruct (oget (o_fs st) (a :: p)) as [[|i|t]|] eqn:O; eauto; cbn in L; congruence.
  Qed.
End Claims.
Print Assumptions C131_absent.
Print Assumptions C131_not_empty.
Print Assumptions C131_file_removed.
Print Assumptions C131_empty_folder_partial.

(** C131, the full statement is false: a file of the archive is removed and a fifo is made in its place.  It stays hidden, so that
    the folder looks empty, but removing the folder fails with EIO = 5; and although it failed, the folder is gone. *)
Theorem C131_empty_folder_refuted : exists h p, let st := play h in
  seen st p = Some EDir /\ (forall n, seen st (p ++ [n]) = None) /\
  exists st1, rmdir (table_lower sample) (table_names sample) st p = (Err (OSErr 5), st1) /\ seen st1 p = None.
Proof.
  exists [OpUnlink [$"d"; $"x"]; OpMknod [$"d"; $"x"]], [$"d"]. cbv zeta.
  set (h := [_; _]). split; [vm_compute; reflexivity|]. split.
  - intros n. destruct (str_eqb_spec n $"x") as [-> |N]; [vm_compute; reflexivity|].
    unfold Overlay_Model.visible. destruct (is_deleted (play h) ([$"d"] ++ [n])); [reflexivity|]. unfold union_lookup. cbn [app].
    assert (o_fs (play h) = [([$"d"], ODir); ([$"d"; $"x"], OFile 0)]) as -> by (vm_compute; reflexivity).
    unfold oget, table_lower, sample, dget. now rewrite !(loc_eqb_neq [$"d"; n]) by congruence.
  - eexists. split; [vm_compute; reflexivity|vm_compute; reflexivity].
Qed.
Print Assumptions C131_empty_folder_refuted.

(** The hypotheses of the theorems are met: after a history with deletions, a new folder and a new file in it. *)
Example C131_absent_case : seen (play busy) [$"a"] = None /\ fst (call (play busy) (OpUnlink [$"a"])) = Err (OSErr 2).
Proof. vm_compute. auto. Qed.
Example C131_not_empty_case : seen (play busy) [$"f"] = Some EDir /\ seen (play busy) ([$"f"] ++ [$"z"]) <> None.
Proof. vm_compute. split; [reflexivity|discriminate]. Qed.
Example C131_file_case : seen (play busy) [$"f"; $"z"] = Some (EFile [3]) /\ seen (play busy) [$"l"] = Some (ELink $"a").
Proof. vm_compute. auto. Qed.
Example C131_empty_folder_case : seen (play busy) [$"d"] = Some EDir /\ (forall n, seen (play busy) ([$"d"] ++ [n]) = None) /\
  (forall n, oget (o_fs (play busy)) ([$"d"] ++ [n]) = None).
Proof.
  split; [vm_compute; reflexivity|].
  assert (O : forall n, oget (o_fs (play busy)) ([$"d"] ++ [n]) = None).
  { intros n. cbn [app]. let f := eval vm_compute in (o_fs (play busy)) in assert (o_fs (play busy) = f) as -> by (vm_compute; reflexivity).
    unfold oget, dget. now rewrite !(loc_eqb_neq [$"d"; n]) by discriminate. }
  split; [|exact O]. intros n. destruct (str_eqb_spec n $"x") as [-> |N]; [vm_compute; reflexivity|].
  unfold Overlay_Model.visible. destruct (is_deleted (play busy) _); [reflexivity|]. unfold union_lookup. rewrite O. cbn [app].
  unfold table_lower, sample, dget. now rewrite !(loc_eqb_neq [$"d"; n]) by congruence.
Qed.
