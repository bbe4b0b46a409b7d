(** Property C03: concurrent readers of one archive. *)
From Verif Require Import PyBase Stencil_Model MemFile_Spec Stencil_Spec Stencil_Proofs Conc_Model Conc_Proofs.
Local Open Scope Z_scope.

(** C03: any number of threads, each with its own stenciled file over shared file objects and the shared lock and its
    own list of calls; for every schedule of atomic steps and every initial position of the shared file objects, the
    answers a thread has got so far are the first answers an in-memory file of its own content gives, and all of
    them once it has finished. *)
Theorem C03_locked_readers :
  forall (A : Type) (content_of : nat -> list A) (cuts : nat -> list (nat * Z * Z)) (progs : nat -> list call),
    (forall t, Forall (inside content_of) (cuts t)) ->
    (forall t, Forall documented (progs t)) ->
    (forall t, no_negative_seek (joined content_of (cuts t)) 0 (progs t)) ->
    forall (files : nat -> sfile) (positions : nat -> Z) (schedule : list nat),
    (forall t, sf_init (cuts t) = Ok (files t)) ->
    let st := run content_of (start positions files (fun t => map (fun c => TCall (to_op c)) (progs t))) schedule in
    forall t, exists rest,
      mem_run (joined content_of (cuts t)) 0 (progs t) = map to_answer (t_out (s_threads st t)) ++ rest /\
      (finished st t -> rest = []).
Proof. exact @concurrent_reads. Qed.
Print Assumptions C03_locked_readers.

(** C03: no deadlock.  As long as some thread has not finished, some unfinished thread is not waiting for a held lock. *)
Theorem C03_no_deadlock :
  forall (A : Type) (content_of : nat -> list A) (cuts : nat -> list (nat * Z * Z)) (progs : nat -> list call),
    (forall t, Forall (inside content_of) (cuts t)) ->
    (forall t, Forall documented (progs t)) ->
    (forall t, no_negative_seek (joined content_of (cuts t)) 0 (progs t)) ->
    forall (files : nat -> sfile) (positions : nat -> Z) (schedule : list nat),
    (forall t, sf_init (cuts t) = Ok (files t)) ->
    let st := run content_of (start positions files (fun t => map (fun c => TCall (to_op c)) (progs t))) schedule in
    forall t, ~ finished st t ->
    exists u, ~ finished st u /\ ~ (exists size, t_pc (s_threads st u) = Wait size /\ s_lock st <> None).
Proof. exact @no_deadlock. Qed.
Print Assumptions C03_no_deadlock.

(** Example: two threads read members [2,5) and [6,8) of one archive; a run interleaving their steps. *)
Definition ex_arch (_ : nat) : list nat := [0; 1; 2; 3; 4; 5; 6; 7; 8]%nat.
Definition ex_file (off size : Z) : sfile := mkSF 0 [O] [off] [size] [0; size].
Definition ex_members (t : nat) : list (nat * Z * Z) := match t with O => [(O, 2, 3)] | _ => [(O, 6, 2)] end.
Definition ex_handles (t : nat) : sfile := match t with O => ex_file 2 3 | _ => ex_file 6 2 end.
Example C03_example_hypotheses :
  (forall t, Forall (inside ex_arch) (ex_members t)) /\ (forall t, sf_init (ex_members t) = Ok (ex_handles t)).
Proof. split; intros [|t]; repeat constructor; cbn; lia. Qed.
Example C03_example_run :
  let st := run ex_arch (start (fun _ => 0) ex_handles (fun t => [TCall (Read 2); TCall (Read 2)]))
              [0; 1; 0; 1; 0; 1; 0; 1; 0; 0; 1; 1; 1; 1; 1; 1; 0; 0; 0; 0; 0; 0; 0; 0; 1; 1; 1; 1; 1]%nat in
  t_out (s_threads st O) = [OData [2; 3]; OData [4]]%nat /\ t_out (s_threads st 1%nat) = [OData [6; 7]; OData []]%nat.
Proof. split; reflexivity. Qed.

(** The direct read of a TAR member (SQLiteIndexedTar.read, no lock) breaks the property: a thread that reads member
    [2,5) gets bytes of another member, both when the other thread reads directly ... *)
Theorem C03_unlocked_direct_reads_refuted :
  exists schedule : list nat,
    let progs t := match t with O => [TDirect O 2 3] | _ => [TDirect O 6 2] end in
    let st := run ex_arch (start (fun _ => 0) ex_handles progs) schedule in
    finished st O /\ t_out (s_threads st O) <> [OData (bytes_at (ex_arch O) 2 3)].
Proof. exists [0; 1; 0]%nat. vm_compute. split; [split; reflexivity|discriminate]. Qed.
Print Assumptions C03_unlocked_direct_reads_refuted.

(** ... and when a direct read runs beside a reader that does use the lock. *)
Theorem C03_unlocked_beside_locked_refuted :
  exists schedule : list nat,
    let progs t := match t with O => [TCall (Read 3)] | _ => [TDirect O 6 2] end in
    let st := run ex_arch (start (fun _ => 0) ex_handles progs) schedule in
    finished st O /\ t_out (s_threads st O) <> [OData (bytes_at (ex_arch O) 2 3)].
Proof. exists [0; 0; 0; 1; 0; 0; 0]%nat. vm_compute. split; [split; reflexivity|discriminate]. Qed.
Print Assumptions C03_unlocked_beside_locked_refuted.
