(** Model of concurrent readers that share the file object of one archive: RawStenciledFile.read with its lock
    (core/ratarmountcore/StenciledFile.py:118-156) and the direct read of SQLiteIndexedTar
    (core/ratarmountcore/mountsource/formats/tar.py:1102-1111), split into atomic steps. *)
From Verif Require Import PyBase Stencil_Model.
Local Open Scope Z_scope.

Section Model.
  Context {A : Type}.
  (** Contents of the shared underlying file objects. *)
  Variable fc : nat -> list A.

  (** What a thread does: calls on its own stenciled file, or SQLiteIndexedTar.read(size, offset) of a non-sparse member
      which seeks the shared file object [f] to an absolute offset and reads, without the lock (tar.py:1110-1111). *)
  Inductive top := TCall (o : op) | TDirect (f : nat) (offset size : Z).

  (** Program counter of a thread.  [Wait]: in front of [with self.fileObjectLock] (StenciledFile.py:149).
      [Loop]: at the while condition (150).  [Sought]: after [fileObjects[i].seek] (133), before [read] (137).
      [Rel]: leaving the [with] block with a result or an exception.
      [DSought]: direct read between its seek and its read. *)
  Inductive pc :=
  | Idle
  | Wait (size : Z)
  | Loop (result : list A) (size : Z)
  | Sought (i : nat) (result : list A) (size : Z)
  | Rel (o : out A)
  | DSought (f : nat) (size : Z).

  Record thread := mkT { t_file : sfile; t_prog : list top; t_pc : pc; t_out : list (out A) }.

  (** Shared state: positions of the file objects, holder of the lock, threads. *)
  Record state := mkS { s_pos : nat -> Z; s_lock : option nat; s_threads : nat -> thread }.

  Definition set_thread (st : state) (t : nat) (th : thread) : state :=
    mkS (s_pos st) (s_lock st) (upd (s_threads st) t th).

  (** One atomic step of thread [t].  Each step accesses the shared state (lock or position of a file object) at most
      once.  A thread waiting for a held lock does not move.  Simplification: Python's global interpreter lock permits
      only these interleavings at call granularity; [seek] and [read] of the shared file object are atomic. *)
  Definition step (st : state) (t : nat) : state :=
    let th := s_threads st t in
    let f := t_file th in
    match t_pc th with
    | Idle =>
      match t_prog th with
      | [] => st
      | TCall (Seek o w) :: r =>
          match sf_seek f o w with
          | (Ok p, f') => set_thread st t (mkT f' r Idle (t_out th ++ [OPos p]))
          | (Err e, f') => set_thread st t (mkT f' r Idle (t_out th ++ [OErr e]))
          end
      | TCall Tell :: r => set_thread st t (mkT f r Idle (t_out th ++ [OPos (sf_tell f)]))
      | TCall (Read n) :: r =>
          if n =? 0 then set_thread st t (mkT f r Idle (t_out th ++ [OData []]))
          else set_thread st t
                 (mkT f r (Wait (if n =? -1 then lastZ (sf_cumsizes f) - sf_offset f else n)) (t_out th))
      | TDirect g o n :: r =>
          mkS (upd (s_pos st) g o) (s_lock st) (upd (s_threads st) t (mkT f r (DSought g n) (t_out th)))
      end
    | Wait size =>
      match s_lock st with
      | Some _ => st
      | None => mkS (s_pos st) (Some t) (upd (s_threads st) t (mkT f (t_prog th) (Loop [] size) (t_out th)))
      end
    | Loop result size =>
      if len result <? size then
        match find_stencil f (sf_offset f) with
        | Err e => set_thread st t (mkT f (t_prog th) (Rel (OErr e)) (t_out th))
        | Ok i =>
          if Nat.leb (length (sf_sizes f)) i then set_thread st t (mkT f (t_prog th) (Rel (OData result)) (t_out th))
          else
            let inside := sf_offset f - nth i (sf_cumsizes f) 0 in
            if (inside <? 0) || (nth i (sf_sizes f) 0 <=? inside) then
              set_thread st t (mkT f (t_prog th) (Rel (OErr AssertionError)) (t_out th))
            else
              mkS (upd (s_pos st) (nth i (sf_objs f) O) (nth i (sf_offsets f) 0 + inside)) (s_lock st)
                  (upd (s_threads st) t (mkT f (t_prog th) (Sought i result size) (t_out th)))
        end
      else set_thread st t (mkT f (t_prog th) (Rel (OData result)) (t_out th))
    | Sought i result size =>
      let g := nth i (sf_objs f) O in
      let readable := Z.min (size - len result) (nth i (sf_sizes f) 0 - (sf_offset f - nth i (sf_cumsizes f) 0)) in
      let tmp := file_read (fc g) (s_pos st g) readable in
      let f' := set_offset f (sf_offset f + len tmp) in
      mkS (upd (s_pos st) g (s_pos st g + len tmp)) (s_lock st)
          (upd (s_threads st) t
            (match tmp with
             | [] => mkT f' (t_prog th) (Rel (OData result)) (t_out th)
             | _ => mkT f' (t_prog th) (Loop (result ++ tmp) size) (t_out th)
             end))
    | Rel o => mkS (s_pos st) None (upd (s_threads st) t (mkT f (t_prog th) Idle (t_out th ++ [o])))
    | DSought g size =>
      let tmp := file_read (fc g) (s_pos st g) size in
      mkS (upd (s_pos st) g (s_pos st g + len tmp)) (s_lock st)
          (upd (s_threads st) t (mkT f (t_prog th) Idle (t_out th ++ [OData tmp])))
    end.

  (** A schedule is the list of the threads that take the next step. *)
  Definition run (st : state) (schedule : list nat) : state := fold_left step schedule st.

  Definition start (pos : nat -> Z) (files : nat -> sfile) (progs : nat -> list top) : state :=
    mkS pos None (fun t => mkT (files t) (progs t) Idle []).

  Definition finished (st : state) (t : nat) : Prop :=
    t_pc (s_threads st t) = Idle /\ t_prog (s_threads st t) = [].
End Model.
Arguments top : clear implicits.
