(** Property C13: a crash during index creation. *)
From Coq Require Import Ascii String.
From Verif Require Import PyBase PyDict PyStr Path_Model FileInfo Index_Model Index_Spec Crash_Model Crash_Proofs.
Local Open Scope Z_scope.

(** C13, provable part: [firstn k (creation history)] are the statements that ran before the crash.  At every crash point
    except two windows of the set-up phase the leftover file is rejected on the next start, or it holds exactly the rows
    of the completed index ([build history], see C12).  [check] is the outcome of the metadata checks.
    Missing for the full statement: the windows [unsafe] (the probe database; between the creation of the tables "files"
    and "filestmp"), refuted below. *)
Theorem C13_crash_safety_partial :
  forall (history : list insertion) (check : bool) (k : nat),
    accepted check (exec_all None (firstn k (creation history))) = false \/
    (exists x, exec_all None (firstn k (creation history)) = Some x /\ d_files x = build history) \/
    (k = 1 \/ 3 <= k <= 7)%nat.
Proof. exact creation_crash. Qed.
Print Assumptions C13_crash_safety_partial.

(** The undisturbed creation leaves an index that is accepted and complete. *)
Theorem C13_creation_succeeds :
  forall history : list insertion,
    exists x, exec_all None (creation history) = Some x /\ d_files x = build history /\ accepted true (Some x) = true.
Proof.
  intros history. unfold creation. rewrite !app_assoc, <- !app_assoc.
  rewrite exec_all_app. cbn [probe exec_all fold_left exec on]. fold (exec_all None). rewrite exec_all_app.
  set (x0 := mkDb all_tables [] [] []). change (exec_all None create_tables) with (Some x0).
  rewrite exec_all_app. change (exec_all (Some x0) create_tables) with (Some x0).
  rewrite exec_all_app. destruct (exec_inserts history empty_index x0) as (x1 & E1 & (H1 & H2 & H3)); [repeat split|].
  destruct (exec_all_keeps _ x0 (inserts_stmts_keep history empty_index)) as (x1' & E1' & Et). rewrite E1 in E1'. injection E1' as <-. rewrite E1.
  unfold finalize_stmts. rewrite <- !app_assoc. cbn [app].
  change (SMoveTmp :: SDrop TFilesTmp :: ?l) with ([SMoveTmp; SDrop TFilesTmp] ++ l). rewrite exec_all_app.
  cbn [exec_all fold_left exec on]. change (fold_left exec ?l (Some ?y)) with (exec_all (Some y) l).
  rewrite exec_all_app, exec_folders. cbn [d_tables d_files d_filestmp d_parents exec_all fold_left exec on].
  rewrite Et, H1, H2. eexists. split; [reflexivity|]. split; reflexivity.
Qed.
Print Assumptions C13_creation_succeeds.

Definition crow (p n : str) (oh : Z) : row := mkRow p n oh (oh + 512) 10 0 33188 0 [] 0 0 false false false 0.

Definition crash_sample : list insertion := [One (crow $"/a" $"f" 0); Batch [crow [] $"x" 1024; crow $"/b/c" $"g" 2048]].

(** On a sample with 3 members: which crash points leave an accepted file, and how many rows it then has. *)
Example C13_example :
  length (creation crash_sample) = 40%nat /\
  map (fun k => match exec_all None (firstn k (creation crash_sample)) with
                | Some x => if accepted true (Some x) then Some (length (d_files x)) else None
                | None => None
                end) (seq 0 41)
  = [None; Some 0%nat; None; Some 0%nat; Some 0%nat; Some 0%nat; Some 0%nat; Some 0%nat] ++ repeat None 26
    ++ repeat (Some 6%nat) 7.
Proof. split; reflexivity. Qed.

(** C13 in full is false: for every archive, a crash in each of the two windows leaves a file without any member that is
    accepted on the next start, whatever the metadata checks say (there is no table "metadata" yet). *)
Theorem C13_crash_windows_refuted :
  forall (history : list insertion) (check : bool) (k : nat), (k = 1 \/ 3 <= k <= 7)%nat ->
    exists x, exec_all None (firstn k (creation history)) = Some x /\
      accepted check (Some x) = true /\ d_files x = [].
Proof.
  intros history check k H.
  assert (Hc : (k = 1 \/ k = 3 \/ k = 4 \/ k = 5 \/ k = 6 \/ k = 7)%nat) by lia.
  destruct Hc as [->|[->|[->|[->|[->| ->]]]]]; eexists; (split; [reflexivity|]); split; reflexivity.
Qed.
Print Assumptions C13_crash_windows_refuted.
