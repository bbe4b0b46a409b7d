(** C59: an index that outgrows the memory limit is moved to the disk without losing anything. *)
From Coq Require Import Ascii String.
From Verif Require Import PyBase PyStr Locate_Model Locate_Spec Locate_Proofs Spill_Model Spill_Proofs.
Open Scope Z_scope.

(** The index of an archive is started in memory.  If there is no candidate for an index file, or one where it can be created, then
    for every sequence of insertions nothing raises and the index contains exactly what was inserted, in order.  As long as there are
    not more rows than the limit, no file is touched.  With more rows, the index lies at the first possible candidate. *)
Theorem C59_moved :
  forall {C R} (size : C -> Z) write sql_usable candidates minimum (fs : str -> option C) (batches : list (list R)),
  0 <= minimum ->
  let possible p := ~ url p /\ (forall c, fs p = Some c -> size c <= 0) /\ write p = Written /\ sql_usable p = true in
  candidates = [] \/ (exists p, In p candidates /\ possible p) ->
  exists st st', open_writable size write sql_usable candidates (new_index fs true) = (Ok tt, st) /\
    create_index size write sql_usable candidates minimum st batches = (Ok tt, st') /\
    indexed st' = Some (concat batches) /\
    (Z.of_nat (length (concat batches)) <= minimum -> path st' = Some $":memory:" /\ forall p, files st' p = fs p) /\
    (minimum < Z.of_nat (length (concat batches)) -> candidates <> [] ->
       exists before p after, candidates = before ++ p :: after /\ (forall q, In q before -> ~ possible q) /\ possible p /\ path st' = Some p).
Proof.
  intros C R size write sql_usable candidates minimum fs batches Hm. cbv zeta. intros K.
  pose proof (find_first size write sql_usable candidates fs) as FF.
  assert (candidates = [] \/ exists p, fst (find_usable size write sql_usable fs candidates) = Some p) as K'.
  { destruct K as [K|(p & Ip & Hp)]; [now left|right]. destruct (fst (find_usable size write sql_usable fs candidates)) as [q|]; [now exists q|]. destruct (FF p Ip Hp). }
  destruct (first_inv (R := R) size write sql_usable candidates minimum fs Hm) as (st & E1 & I1). destruct (create_inv size write sql_usable candidates minimum fs batches K' st [] I1) as (st' & E2 & I2). cbn [app] in I2.
  exists st, st'. split; [exact E1|]. split; [exact E2|]. destruct I2 as (Hi & [(M & H & F & L)|(M & L & p & H & V)]).
  - destruct (holds_indexed st' _ _ H) as [-> Hp]. split; [reflexivity|]. split; [intros _; split; [exact Hp|intros p; now rewrite F]|]. unfold len in L. intros X. lia.
  - destruct (holds_indexed st' _ _ H) as [-> Hp]. split; [reflexivity|]. unfold len in L. split; [intros X; lia|]. intros _ N. destruct V as [(X & _)|(_ & E & _)]; [congruence|]. rewrite <- E in FF. destruct FF as (before & after & F1 & F2 & F3 & _). exists before, p, after. auto.
Qed.
Print Assumptions C59_moved.

Definition ex_write (p : str) : write_result nat := if starts_with $"/ro" p then Denied else Written.
Example C59_example :
  let r := create_index Z.of_nat ex_write (fun _ => true) [$"/ro/i"; $"/rw/i"] 3
             (snd (open_writable Z.of_nat ex_write (fun _ => true) [$"/ro/i"; $"/rw/i"] (new_index (fun _ => None) true))) [[1; 2]; []; [3]; [4; 5]; [6]] in
  fst r = Ok tt /\ indexed (snd r) = Some [1; 2; 3; 4; 5; 6] /\ path (snd r) = Some $"/rw/i" /\ ex_write $"/rw/i" = Written.
Proof. cbv zeta. repeat split; vm_compute; reflexivity. Qed.

(** If no candidate is possible, indexing an archive with more files than the limit fails: the connection in memory is closed
    although it is still the one in use. *)
Theorem C59_unwritable_refuted :
  exists write candidates (batches : list (list Z)),
  fst (open_writable (R := Z) Z.of_nat write (fun _ => true) candidates (new_index (fun _ => None) true)) = Ok tt /\
  let r := create_index Z.of_nat write (fun _ => true) candidates 1
             (snd (open_writable Z.of_nat write (fun _ => true) candidates (new_index (fun _ => None) true))) batches in
  fst r = Err RuntimeError /\ indexed (snd r) = None.
Proof. exists ex_write, [$"/ro/x.tar.index.sqlite"], [[1]; [2]]. repeat split. Qed.
Print Assumptions C59_unwritable_refuted.
