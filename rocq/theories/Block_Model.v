(** Model of core/ratarmountcore/BlockParallelReaders.py: [BlockParallelReader] with the block cache of utils.py. *)
From Verif Require Import PyBase PyDict Stencil_Model Lru_Model.
Local Open Scope Z_scope.

Section Model.
  Context {A : Type}.
  (** The decompressed stream.  A background job (offset, size) is executed by a worker that seeks its own file object to
      the offset and reads the size (BlockParallelReaders.py:331-334,366-381), so its result is this slice. *)
  Variable stream : list A.
  (** [self.blockBoundaries] *)
  Variable boundaries : list Z.
  (** [self.parallelization] (number of cores minus one, 49). *)
  Variable par : nat.
  (** Floating point formula of the prefetcher, see [pf_prefetch]. *)
  Variable count : nat -> nat -> nat.

  Definition job : Type := (Z * Z)%type.
  (** [AsyncResult.get()]: waits for the job and returns its result. *)
  Definition job_get (j : job) : list A := zslice stream (fst j) (snd j).

  (** State, BlockParallelReaders.py:57-61.  Simplification: statistics counters are dropped. *)
  Record breader := mkBR { b_offset : Z; b_cache : lru nat job; b_fetched : list nat; b_last : nat }.

  Definition br_init : breader := mkBR 0 (lru_init (2 * (par + 1))) [] O.

  (** BlockParallelReader._find_block, BlockParallelReaders.py:89-97. *)
  Definition find_block (offset : Z) : option nat :=
    match bisect_right boundaries offset with
    | O => None
    | S n => if Nat.ltb (n + 1) (length boundaries) then Some n else None
    end.

  (** BlockParallelReader._block_size, BlockParallelReaders.py:99-103. *)
  Definition block_size (n : nat) : Z :=
    if Nat.leb (length boundaries) (n + 1) then 0 else nth (n + 1) boundaries 0 - nth n boundaries 0.

  Definition job_of (n : nat) : job := (nth n boundaries 0, block_size n).

  (** Fetch a block from the cache or submit a job for it, BlockParallelReaders.py:184-198. *)
  Definition fetch (c : lru nat job) (n : nat) (pending : nat) : res (job * nat) * lru nat job :=
    if lru_contains Nat.eqb c n then
      match lru_getitem Nat.eqb c n with (Ok j, c') => (Ok (j, pending), c') | (Err e, c') => (Err e, c') end
    else
      match lru_set Nat.eqb c n (job_of n) with
      | (Ok _, c') => (Ok (job_of n, S pending), c')
      | (Err e, c') => (Err e, c')
      end.

  (** The fetch loop, BlockParallelReaders.py:179-216.  [blocks] collects the jobs.  Returns the jobs, the last value of
      [size] and the number of pending blocks.  The fuel is the number of blocks. *)
  Fixpoint fetch_loop (fuel : nat) (st : breader) (n : nat) (size avail : Z) (pending : nat) (blocks : list job)
    : res (list job * Z * nat) * breader :=
    match fuel with
    | O => (Err OutOfFuel, st)
    | S fuel' =>
      let fetched := pf_fetch 4 (b_fetched st) n in
      match fetch (b_cache st) n pending with
      | (Err e, c') => (Err e, mkBR (b_offset st) c' fetched n)
      | (Ok (j, pending'), c') =>
        let blocks' := blocks ++ [j] in
        let st' := mkBR (b_offset st + Z.min avail size) c' fetched n in
        if size <=? avail then (Ok (blocks', size, pending'), st')
        else
          let n' := (n + 1)%nat in
          if Nat.leb (length boundaries) (n' + 1) then (Ok (blocks', size, pending'), st')
          else
            let size' := size - avail in
            let inBlock := b_offset st' - nth n' boundaries 0 in
            fetch_loop fuel' st' n' size' (block_size n' - inBlock) pending' blocks'
      end
    end.

  (** Prefetching, BlockParallelReaders.py:218-229. *)
  Fixpoint prefetch_loop (c : lru nat job) (todo : list nat) (pending : nat) : res unit * lru nat job :=
    match todo with
    | [] => (Ok tt, c)
    | n :: r =>
      if (0 <? block_size n) && negb (lru_contains Nat.eqb c n) && Nat.ltb pending par then
        match lru_set Nat.eqb c n (job_of n) with
        | (Ok _, c') => prefetch_loop c' r (S pending)
        | (Err e, c') => (Err e, c')
        end
      else prefetch_loop c r pending
    end.

  (** Concatenation of the fetched blocks, BlockParallelReaders.py:231-245. *)
  Fixpoint concat_blocks (firstOffset size : Z) (blocks : list job) : list A :=
    match blocks with
    | [] => []
    | j :: r =>
      let d := job_get j in
      let d := if 0 <? firstOffset then py_slice d firstOffset (len d) else d in
      let d := match r with [] => py_slice d 0 size | _ => d end in
      d ++ concat_blocks 0 size r
    end.

  (** BlockParallelReader._read, BlockParallelReaders.py:152-248.  [ready] tells which jobs happen to be finished (only
      used to decide how much to prefetch). *)
  Definition br_read (st : breader) (ready : nat -> bool) (size : Z) : res (list A) * breader :=
    match find_block (b_offset st) with
    | None => (Ok [], st)
    | Some n =>
      let firstOffset := b_offset st - nth n boundaries 0 in
      let avail := block_size n - firstOffset in
      if lru_contains Nat.eqb (b_cache st) n && (size <=? avail) && Nat.eqb (b_last st) n then
        match lru_getitem Nat.eqb (b_cache st) n with
        | (Err e, c') => (Err e, mkBR (b_offset st) c' (b_fetched st) (b_last st))
        | (Ok j, c') =>
          let result := py_slice (job_get j) firstOffset (firstOffset + size) in
          (Ok result, mkBR (b_offset st + len result) c' (b_fetched st) (b_last st))
        end
      else
        let pending := length (filter (fun '(k, _) => negb (ready k)) (l_data (b_cache st))) in
        match fetch_loop (length boundaries) st n size avail pending [] with
        | (Err e, st') => (Err e, st')
        | (Ok (blocks, size', pending'), st') =>
          match prefetch_loop (b_cache st') (pf_prefetch count 4 par (b_fetched st')) pending' with
          | (Err e, c') => (Err e, mkBR (b_offset st') c' (b_fetched st') (b_last st'))
          | (Ok _, c') =>
            (Ok (concat_blocks firstOffset size' blocks), mkBR (b_offset st') c' (b_fetched st') (b_last st'))
          end
        end
    end.

  (** BlockParallelReader.seek, BlockParallelReaders.py:135-146.  The position is assigned BEFORE the check. *)
  Definition br_seek (st : breader) (offset : Z) (w : whence) : res Z * breader :=
    let new := match w with
               | SEEK_CUR => b_offset st + offset
               | SEEK_END => lastZ boundaries + offset
               | SEEK_SET => offset
               end in
    let st' := mkBR new (b_cache st) (b_fetched st) (b_last st) in
    if new <? 0 then (Err ValueError, st') else (Ok new, st').

  (** One call; every read comes with the set of jobs ready at that time. *)
  Definition br_step (st : breader) (x : op * (nat -> bool)) : out A * breader :=
    match fst x with
    | Seek o w => match br_seek st o w with (Ok p, st') => (OPos p, st') | (Err e, st') => (OErr e, st') end
    | Read n => match br_read st (snd x) n with (Ok d, st') => (OData d, st') | (Err e, st') => (OErr e, st') end
    | Tell => (OPos (b_offset st), st)
    end.

  Fixpoint br_run (st : breader) (xs : list (op * (nat -> bool))) : list (out A) :=
    match xs with
    | [] => []
    | x :: r => let '(o, st') := br_step st x in o :: br_run st' r
    end.
End Model.
