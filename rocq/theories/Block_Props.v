(** Property C06: block-wise parallel decompression. *)
From Verif Require Import PyBase PyDict Stencil_Model MemFile_Spec Stencil_Spec Joined_Model Lru_Model Block_Model Block_Proofs.
Local Open Scope Z_scope.

(** C06, provable part: however the stream is divided into blocks (empty ones included), whatever the number of workers,
    whatever the prefetcher's formula yields and whichever jobs happen to be ready at each call, every history of
    tell, seek (to non-negative positions) and read (of sizes >= 0) gets the answers of an in-memory file holding the
    whole stream.  In particular no call ever raises.
    Missing for the full statement: read(-1), which is wrong, see below. *)
Theorem C06_block_reader_partial :
  forall (A : Type) (blocks : list (list A)) (workers : nat) (prefetch_count : nat -> nat -> nat)
    (calls : list (call * (nat -> bool))),
    Forall (fun x => match fst x with CRead n => 0 <= n | _ => True end) calls ->
    no_negative_seek (concat blocks) 0 (map fst calls) ->
    map to_answer (br_run (concat blocks) (cumsum 0 (map len blocks)) workers prefetch_count (br_init workers)
                     (map (fun x => (to_op (fst x), snd x)) calls)) =
    mem_run (concat blocks) 0 (map fst calls).
Proof. exact @block_history. Qed.
Print Assumptions C06_block_reader_partial.

Example C06_example :
  let blocks := [[1; 2; 3]; []; [4; 5]; [6; 7; 8; 9]]%nat in
  let calls := [(CRead 2, fun _ => false); (CRead 5, fun _ => true); (CSeek 1 FromStart, fun _ => true);
                (CRead 100, Nat.even); (CTell, Nat.even); (CSeek (-3) FromEnd, Nat.odd); (CRead 1, Nat.odd); (CRead 1, Nat.odd)] in
  Forall (fun x => match fst x with CRead n => 0 <= n | _ => True end) calls /\
  no_negative_seek (concat blocks) 0 (map fst calls) /\
  map to_answer (br_run (concat blocks) (cumsum 0 (map len blocks)) 2 (fun a b => a + b)%nat (br_init 2)
                     (map (fun x => (to_op (fst x), snd x)) calls)) =
  [AnsData [1; 2]; AnsData [3; 4; 5; 6; 7]; AnsPos 1; AnsData [2; 3; 4; 5; 6; 7; 8; 9]; AnsPos 9; AnsPos 6; AnsData [7]; AnsData [8]]%nat.
Proof. split; [repeat constructor; discriminate|]. split; [cbn; repeat split; discriminate|]. vm_compute. reflexivity. Qed.

(** C06 in full is false: read(-1) ("everything that is left") of a fresh reader loses bytes: for a stream of a single
    block it returns all but the last byte, and it moves the position to -1. *)
Theorem C06_read_all_refuted :
  forall (A : Type) (block : list A) (workers : nat) (prefetch_count : nat -> nat -> nat) (ready : nat -> bool),
    block <> [] ->
    br_run (concat [block]) (cumsum 0 (map len [block])) workers prefetch_count (br_init workers)
      [(Read (-1), ready); (Tell, ready)] =
    [OData (removelast block); OPos (-1)].
Proof. exact @block_read_all. Qed.
Print Assumptions C06_read_all_refuted.
