(** Properties C04 and C05: joined split parts, callback files. *)
From Verif Require Import PyBase Stencil_Model MemFile_Spec Stencil_Spec Joined_Model Joined_Spec Joined_Proofs.
Local Open Scope Z_scope.

(** C04: over every history of seek/read/tell the joined file answers like a (short-reading) file holding the
    concatenation of the parts. *)
Theorem C04_joined_history :
  forall (A : Type) (parts : list (list A)) (calls : list call),
    Forall documented calls ->
    raw_run (concat parts) 0 calls (map to_answer (jf_run (jf_init parts) (map to_op calls))).
Proof. exact @joined_history. Qed.
Print Assumptions C04_joined_history.

(** C04: after any history, repeating the read until [n] bytes are gathered gives exactly the next [n] bytes of the
    concatenation (clipped to its end). *)
Theorem C04_joined_gather :
  forall (A : Type) (parts : list (list A)) (calls : list call) (n : Z),
    Forall documented calls -> 0 <= n ->
    exists s', gather jf_read (S (Z.to_nat n)) (jf_exec (jf_init parts) (map to_op calls)) n [] =
      (Ok (bytes_at (concat parts) (jf_tell (jf_exec (jf_init parts) (map to_op calls))) n), s').
Proof. exact @joined_gather. Qed.
Print Assumptions C04_joined_gather.

Example C04_example :
  jf_run (jf_init [[1; 2]; []; [3]; [4; 5; 6]]%nat)
    [Seek 1 SEEK_SET; Read 9; Read 9; Read 1; Seek (-2) SEEK_END; Read (-1); Read 5; Seek (-9) SEEK_CUR; Tell] =
  [OPos 1; OData [2]; OData [3]; OData [4]; OPos 4; OData [5; 6]; OData []; OPos 0; OPos 0]%nat.
Proof. reflexivity. Qed.

(** C05, provable part: over every history in which no seek goes before the start, the callback file answers like an
    in-memory file with the callback's content, and every request to the callback is inside the declared size.
    Missing for the full statement: histories after a rejected seek (refuted below). *)
Theorem C05_callback_file_partial :
  forall (A : Type) (rawRead : Z -> Z -> list A) (content : list A) (calls : list call),
    (forall o n, 0 <= o -> 0 <= n -> n = 0 \/ o + n <= len content -> rawRead o n = bytes_at content o n) ->
    no_negative_seek content 0 calls ->
    let '(outs, s) := lf_run rawRead (lf_init (len content)) (map to_op calls) in
    map to_answer outs = mem_run content 0 calls /\
    (forall o n, In (o, n) (lf_log s) -> 0 <= o /\ 0 <= n /\ (n = 0 \/ o + n <= len content)).
Proof. exact @lambda_history. Qed.
Print Assumptions C05_callback_file_partial.

(** The callback of ZeroFile satisfies the hypothesis for a content of zeros of any size. *)
Theorem C05_zero_file_callback :
  forall (A : Type) (zero : A) (size : nat) (o n : Z),
    0 <= o -> 0 <= n -> n = 0 \/ o + n <= len (repeat zero size) ->
    zero_raw_read zero o n = bytes_at (repeat zero size) o n.
Proof. exact @zero_raw_read_ok. Qed.
Print Assumptions C05_zero_file_callback.

(** C05 in full is false: after a rejected seek the callback is asked for a negative offset. *)
Theorem C05_rejected_seek_refuted :
  exists (content : list nat) (rawRead : Z -> Z -> list nat) (calls : list call),
    (forall o n, rawRead o n = bytes_at content o n) /\
    let '(outs, s) := lf_run rawRead (lf_init (len content)) (map to_op calls) in
    map to_answer outs <> mem_run content 0 calls /\ exists o n, In (o, n) (lf_log s) /\ o < 0.
Proof.
  exists [1; 2; 3]%nat, (bytes_at [1; 2; 3]%nat), [CSeek (-1) FromStart; CRead 1; CTell; CSeek (-3) FromCurrent; CRead 3].
  split; [reflexivity|]. vm_compute. split; [discriminate|]. exists (-3), 3. split; [right; left; reflexivity|reflexivity].
Qed.
Print Assumptions C05_rejected_seek_refuted.

Example C05_example :
  fst (lf_run (zero_raw_read 0%nat) (lf_init (len (repeat 0%nat 4)))
    (map to_op [CRead 3; CRead (-1); CSeek (-2) FromEnd; CRead 9; CSeek 7 FromStart; CRead 1])) =
  [OData [0; 0; 0]; OData [0]; OPos 2; OData [0; 0]; OPos 7; OData []]%nat
  /\ no_negative_seek (repeat 0%nat 4) 0
       [CRead 3; CRead (-1); CSeek (-2) FromEnd; CRead 9; CSeek 7 FromStart; CRead 1].
Proof. split; [reflexivity|cbv; repeat split; discriminate]. Qed.
