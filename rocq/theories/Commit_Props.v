(** C32: committing the overlay. *)
From Coq Require Import Ascii String Permutation.
From Verif Require Import PyBase PyDict PyStr Path_Spec Path_Proofs Overlay_Model Overlay_Spec Overlay_Proofs Overlay_Steps
  Overlay_Results Commit_Model Commit_Spec Commit_Proofs Commit_Steps.

(** ** Examples *)

Definition small : list (str * @lnode nat) :=
  [($"a", LFile [1; 2; 3]); ($"./d/", LDir); ($"/d/x", LFile [7; 8]); ($"./d/y", LFile [9]); ($"l", LLink $"a");
   ($"i/j", LFile [4])].

Definition plain (_ : @ostate nat) (_ : location) : Z * Z * Z * Z := (5, 420, 1000, 1000)%Z.
Notation step_on M := (step 0 (archive_shows M) (archive_names M) plain).
Notation run_on M := (run 0 (archive_shows M) (archive_names M) plain fresh_overlay).

Ltac proper := repeat constructor; try discriminate; cbn; intuition discriminate.
Lemma small_spelled : Forall (fun m => well_spelled (fst m)) small.
Proof.
  unfold small. repeat apply Forall_cons; try apply Forall_nil; left.
  - exists [$"a"]. split; [discriminate|]. split; [proper|]. exists [], []. cbn; auto.
  - exists [$"d"]. split; [discriminate|]. split; [proper|]. exists $"./", $"/". cbn; auto.
  - exists [$"d"; $"x"]. split; [discriminate|]. split; [proper|]. exists $"/", []. cbn; auto.
  - exists [$"d"; $"y"]. split; [discriminate|]. split; [proper|]. exists $"./", []. cbn; auto.
  - exists [$"l"]. split; [discriminate|]. split; [proper|]. exists [], []. cbn; auto.
  - exists [$"i"; $"j"]. split; [discriminate|]. split; [proper|]. exists [], []. cbn; auto.
Qed.

Lemma small_consistent : consistent small.
Proof. apply consistentb_spec. vm_compute. reflexivity. Qed.

(** Removing, creating, writing and renaming files, also in folders of the archive. *)
Definition day : list (@op nat) :=
  [OpUnlink [$"a"]; OpCreate [$"d"; $"n"] 33188; OpWrite 0 [5; 6] 0; OpUnlink [$"d"; $"y"];
   OpMkdir [$"e"] 16877; OpMkdir [$"e"; $"f"] 16877; OpRename [$"d"; $"x"] [$"e"; $"z"]; OpSymlink [$"e"; $"s"] $"z";
   OpOpenWrite [$"i"; $"j"]; OpCreate [$"a"] 33188; OpTruncate [$"a"] 2].

Example day_fair : fair_history (archive_shows small) (step_on small) fresh_overlay day.
Proof. apply all_fair_spec. vm_compute. reflexivity. Qed.

Section Claims.
  Context {A : Type} (zero : A).
  Variable attributes : @ostate A -> location -> Z * Z * Z * Z.
  (** Any archive with names in the usual spellings whose files have nothing below them. *)
  Variable M : list (str * @lnode A).
  Hypothesis spelled : Forall (fun m => well_spelled (fst m)) M.
  Hypothesis K : consistent M.

  Notation lower := (archive_shows M).
  Notation step := (step zero lower (archive_names M) attributes).
  Notation run := (run zero lower (archive_names M) attributes fresh_overlay).

  (** C32: for every history of calls (apart from those in [committable]) on the mounted archive and for every order the file
      system yields the files of the overlay folder in: the archive after committing shows exactly the files and links the
      mount showed, with the same content, and only folders the mount showed.  A folder can only be missing if it had no
      member of its own in the archive. *)
  Theorem C32_commit_partial h app q : fair_history lower step fresh_overlay h ->
    Permutation app (appended (run h)) -> q <> [] ->
    let before := visible lower (run h) q in
    let after := archive_shows (commit (run h) app M) q in
    (forall c, before = Some (EFile c) <-> after = Some (LFile c)) /\
    (forall t, before = Some (ELink t) <-> after = Some (LLink t)) /\
    (after = Some LDir -> before = Some EDir) /\
    (before = Some EDir -> after = Some LDir \/
       (after = None /\ forall m, In m M -> denotes (fst m) <> q)).
  Proof.
    intros F P N before after.
    destruct (history_clean zero lower (archive_names M) (archive_tree M K) attributes h fresh_overlay) as (C & W);
      auto using fresh_kept. { apply (fresh_clean lower (archive_names M)). now apply archive_tree. }
    set (st := run h) in *.
    assert (forall q, q <> [] -> lower q = archive_shows M q) as L by reflexivity.
    assert ((before = None /\ after = None) \/
            (exists n, before = Some (entry_of_lower n) /\
               (after = Some n \/ after = None /\ n = LDir /\ members_at M q = []))) as [(-> & ->)|(n & -> & H)].
    { destruct (oget (o_fs st) q) as [n|] eqn:O.
      - right. exists (stored st n). split.
        + unfold before, visible. destruct (is_deleted st q) eqn:D.
          * apply (clean_deleted lower st C) in D. congruence.
          * rewrite (oget_Some_lookup lower st q n N O). now rewrite stored_entry.
        + left. apply (commit_overlay_entry lower st W C M spelled L app P q n N O).
      - destruct before as [e|] eqn:V.
        + right. destruct (commit_lower lower st W C M spelled L app P q N O) as (n & _ & V' & X); [fold before; congruence|].
          exists n. split; [fold before in V'; congruence|exact X].
        + left. split; [reflexivity|]. now apply (commit_hidden lower st W C M spelled L app P q N O). }
    - repeat split; discriminate.
    - destruct H as [->|(-> & -> & E)].
      + destruct n as [|c|t]; cbn [entry_of_lower]; repeat split; intros; try congruence; auto.
      + cbn [entry_of_lower]. repeat split; try discriminate. intros _. right. split; [reflexivity|]. intros m I D.
        assert (In m (members_at M q)) as J by (now apply In_members_at). rewrite E in J. destruct J.
  Qed.

  (** If the folders of the archive have members of their own, mounting the committed archive shows what the mount with
      the overlay showed, entirely. *)
  Theorem C32_remount_partial h app q : fair_history lower step fresh_overlay h ->
    Permutation app (appended (run h)) ->
    (forall p, p <> [] -> lower p = Some LDir -> exists m, In m M /\ denotes (fst m) = p) ->
    visible (archive_shows (commit (run h) app M)) fresh_overlay q = visible lower (run h) q.
  Proof.
    intros F P X. destruct q as [|a q].
    - destruct (history_clean zero lower (archive_names M) (archive_tree M K) attributes h fresh_overlay) as (C & W);
        auto using fresh_kept. { apply (fresh_clean lower (archive_names M)). now apply archive_tree. }
      unfold visible. destruct (is_deleted (run h) []) eqn:D; [|reflexivity].
      apply (clean_deleted_names lower _ C) in D. now destruct D.
    - assert (a :: q <> []) as N by discriminate.
      destruct (C32_commit_partial h app (a :: q) F P N) as (H1 & H2 & H3 & H4).
      change (visible (archive_shows (commit (run h) app M)) fresh_overlay (a :: q))
        with (option_map entry_of_lower (archive_shows (commit (run h) app M) (a :: q))).
      destruct (archive_shows (commit (run h) app M) (a :: q)) as [[|c|t]|] eqn:E; cbn [option_map entry_of_lower].
      + symmetry. now apply H3.
      + symmetry. now apply H1.
      + symmetry. now apply H2.
      + destruct (visible lower (run h) (a :: q)) as [[|c|t]|] eqn:V; [|discriminate (proj1 (H1 c) eq_refl)|
          discriminate (proj1 (H2 t) eq_refl)|reflexivity].
        exfalso. destruct (H4 eq_refl) as [Y|(_ & Y)]; [discriminate|].
        (* the folder is in the overlay folder or in the archive, with a member of its own *)
        destruct (history_clean zero lower (archive_names M) (archive_tree M K) attributes h fresh_overlay) as (C & W);
          auto using fresh_kept. { apply (fresh_clean lower (archive_names M)). now apply archive_tree. }
        destruct (oget (o_fs (run h)) (a :: q)) as [n|] eqn:O.
        * rewrite (commit_overlay_entry lower _ W C M spelled (fun _ _ => eq_refl) app P (a :: q) n N O) in E. discriminate.
        * destruct (commit_lower lower _ W C M spelled (fun _ _ => eq_refl) app P (a :: q) N O) as (n & L & V' & _); [congruence|].
          rewrite V in V'. destruct n; try discriminate V'. destruct (X (a :: q) N L) as (m & I & D). now apply (Y m I).
  Qed.

End Claims.

(** The hypotheses are met by a history of eleven calls on an archive with three spellings, and the result is as claimed. *)
Example C32_commit_example :
  let after := commit (run_on small day) (appended (run_on small day)) small in
  archive_shows after [$"a"] = Some (LFile [0; 0]) /\ archive_shows after [$"d"; $"n"] = Some (LFile [5; 6]) /\
  archive_shows after [$"d"; $"x"] = None /\ archive_shows after [$"d"; $"y"] = None /\
  archive_shows after [$"e"; $"z"] = Some (LFile [7; 8]) /\ archive_shows after [$"e"; $"s"] = Some (LLink $"z") /\
  archive_shows after [$"e"; $"f"] = Some LDir /\ archive_shows after [$"i"; $"j"] = Some (LFile [4]) /\
  archive_shows after [$"l"] = Some (LLink $"a").
Proof. vm_compute. repeat split. Qed.

(** Without its last member, the folders of the archive have members of their own. *)
Example C32_remount_example : forall p, p <> [] -> archive_shows (firstn 5 small) p = Some LDir ->
  exists m, In m (firstn 5 small) /\ denotes (fst m) = p.
Proof.
  intros p N H.
  assert (exists m, In m (firstn 5 small) /\ at_or_below p (denotes (fst m))) as (m & I & (r & B)).
  { destruct (existsb (fun m => loc_prefix p (denotes (fst m))) (firstn 5 small)) eqn:X.
    - apply existsb_exists in X. destruct X as (m & I & B). exists m. split; [exact I|].
      now destruct (loc_prefix_spec p (denotes (fst m))).
    - exfalso. rewrite existsb_false in X. assert (archive_shows (firstn 5 small) p = None) as Y; [|congruence].
      apply shows_None. intros m I B. specialize (X m I). cbn beta in X. now destruct (loc_prefix_spec p (denotes (fst m))). }
  cbn [firstn small In] in I. destruct p as [|a p]; [congruence|].
  destruct I as [<-|[<-|[<-|[<-|[<-|[]]]]]]; vm_compute in B; injection B as <- B.
  all: destruct p as [|b p]; [first [vm_compute in H; discriminate H | exists ($"./d/", LDir); split; [right; now left|reflexivity]]|].
  all: try discriminate B.
  all: injection B as <- B; destruct p; [vm_compute in H; discriminate H|discriminate B].
Qed.

(** ** Where committing goes wrong *)

(** Names in other spellings are shown by the mount, but not deleted from the archive: the removed file comes back. *)
Definition odd : list (str * @lnode nat) := [($"d//x", LFile [7]); ($"d/../a", LFile [1])].

Theorem C32_spelling_refuted :
  let h := [OpUnlink [$"d"; $"x"]; OpUnlink [$"a"]] in
  fair_history (archive_shows odd) (step_on odd) fresh_overlay h /\
  visible (archive_shows odd) (run_on odd h) [$"d"; $"x"] = None /\
  visible (archive_shows odd) (run_on odd h) [$"a"] = None /\
  archive_shows (commit (run_on odd h) (appended (run_on odd h)) odd) [$"d"; $"x"] = Some (LFile [7]) /\
  archive_shows (commit (run_on odd h) (appended (run_on odd h)) odd) [$"a"] = Some (LFile [1]).
Proof. split; [apply all_fair_spec; vm_compute; reflexivity|]. vm_compute. repeat split. Qed.

(** A folder made in the place of a removed file, with a file in it: the old file stays in the archive next to it, and
    hides the new folder. *)
Theorem C32_folder_for_file_refuted :
  let h := [OpUnlink [$"a"]; OpMkdir [$"a"] 16877; OpCreate [$"a"; $"f"] 33188] in
  visible (archive_shows small) (run_on small h) [$"a"] = Some EDir /\
  archive_shows (commit (run_on small h) (appended (run_on small h)) small) [$"a"] = Some (LFile [1; 2; 3]).
Proof. vm_compute. repeat split. Qed.

(** A link made under the name of a removed file is not shown by the mount, but it is committed. *)
Theorem C32_link_for_deleted_refuted :
  let h := [OpUnlink [$"a"]; OpSymlink [$"a"] $"l"] in
  visible (archive_shows small) (run_on small h) [$"a"] = None /\
  archive_shows (commit (run_on small h) (appended (run_on small h)) small) [$"a"] = Some (LLink $"l").
Proof. vm_compute. repeat split. Qed.

(** A folder without a member of its own vanishes with the last file in it, although the mount still shows it. *)
Theorem C32_implied_folder_refuted :
  let h := [OpUnlink [$"i"; $"j"]] in
  fair_history (archive_shows small) (step_on small) fresh_overlay h /\
  visible (archive_shows small) (run_on small h) [$"i"] = Some EDir /\
  archive_shows (commit (run_on small h) (appended (run_on small h)) small) [$"i"] = None.
Proof. split; [apply all_fair_spec; vm_compute; reflexivity|]. vm_compute. repeat split. Qed.

Print Assumptions C32_commit_partial.
Print Assumptions C32_remount_partial.
Print Assumptions C32_spelling_refuted.
Print Assumptions C32_folder_for_file_refuted.
Print Assumptions C32_link_for_deleted_refuted.
Print Assumptions C32_implied_folder_refuted.
