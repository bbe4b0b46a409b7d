(** Properties C01 and C02: stenciled files. *)
From Verif Require Import PyBase Stencil_Model MemFile_Spec Stencil_Spec Stencil_Proofs.
Local Open Scope Z_scope.

(** C01: reading [n] bytes at [o] from a file made of cut-outs yields exactly the bytes [o, o+n) of their concatenation
    ([n = -1]: all bytes from [o] on), whatever positions the underlying file objects were left at, and advances the
    position by what was read. *)
Theorem C01_stenciled_read_at :
  forall (A : Type) (content_of : nat -> list A) (cuts : list (nat * Z * Z)) (o n : Z) (positions : nat -> Z),
    Forall (inside content_of) cuts -> 0 <= o -> -1 <= n ->
    let expected := if n =? -1 then skipn (Z.to_nat o) (joined content_of cuts)
                    else bytes_at (joined content_of cuts) o n in
    exists s s1 s2 positions',
      sf_init cuts = Ok s /\ sf_seek s o SEEK_SET = (Ok o, s1) /\
      sf_read content_of s1 positions n = (Ok expected, s2, positions') /\
      sf_tell s2 = o + Z.of_nat (length expected).
Proof. exact @stencil_read_at. Qed.
Print Assumptions C01_stenciled_read_at.

(** C02, provable part: over every history of seek/read/tell calls in which no seek goes before the start, a stenciled
    file answers like an in-memory file with the joined content.
    Missing for the full statement: histories with a rejected seek; there the claim is false (next theorem). *)
Theorem C02_stenciled_history_partial :
  forall (A : Type) (content_of : nat -> list A) (cuts : list (nat * Z * Z)) (calls : list call)
         (positions : nat -> Z),
    Forall (inside content_of) cuts -> Forall documented calls ->
    no_negative_seek (joined content_of cuts) 0 calls ->
    exists s, sf_init cuts = Ok s /\
      map to_answer (sf_run content_of (s, positions) (map to_op calls)) = mem_run (joined content_of cuts) 0 calls.
Proof. exact @stencil_history. Qed.
Print Assumptions C02_stenciled_history_partial.

(** C02, all histories: the exact behaviour including rejected seeks. *)
Theorem C02_stenciled_history_actual :
  forall (A : Type) (content_of : nat -> list A) (cuts : list (nat * Z * Z)) (calls : list call)
         (positions : nat -> Z),
    Forall (inside content_of) cuts -> Forall documented calls ->
    exists s, sf_init cuts = Ok s /\
      map to_answer (sf_run content_of (s, positions) (map to_op calls)) = actual_run (joined content_of cuts) 0 calls.
Proof. exact @stencil_history_actual. Qed.
Print Assumptions C02_stenciled_history_actual.

(** Example data: two underlying files, cut-outs with an empty one and a re-used file. *)
Definition ex_files (f : nat) : list nat := match f with O => [10; 11; 12; 13; 14] | _ => [20; 21; 22] end%nat.
Definition ex_cuts : list (nat * Z * Z) := [(0%nat, 1, 2); (1%nat, 0, 0); (1%nat, 0, 3); (0%nat, 4, 1)].

(** C02 in full is false: a rejected seek changes the position, so a later [tell] or [read] deviates. *)
Theorem C02_rejected_seek_refuted :
  exists (calls : list call), Forall documented calls /\ Forall (inside ex_files) ex_cuts /\
    exists s, sf_init ex_cuts = Ok s /\
      map to_answer (sf_run ex_files (s, fun _ => 0) (map to_op calls)) <> mem_run (joined ex_files ex_cuts) 0 calls.
Proof.
  exists [CSeek (-1) FromStart; CRead 2]. split; [repeat constructor; cbn; lia|].
  split; [repeat constructor; cbn; lia|]. eexists; split; [reflexivity|]. cbv. discriminate.
Qed.
Print Assumptions C02_rejected_seek_refuted.

(** The hypotheses of C01/C02 hold for a non-trivial case and the content is what one expects. *)
Example C01_example_hypotheses : Forall (inside ex_files) ex_cuts.
Proof. repeat constructor; cbn; lia. Qed.
Example C01_example_content : joined ex_files ex_cuts = [11; 12; 20; 21; 22; 14]%nat.
Proof. reflexivity. Qed.
Example C02_example_history :
  no_negative_seek (joined ex_files ex_cuts) 0
    [CRead 1; CSeek 2 FromCurrent; CRead 2; CSeek (-1) FromEnd; CRead (-1); CSeek 100 FromStart; CRead 3; CTell].
Proof. cbv. repeat split; discriminate. Qed.
