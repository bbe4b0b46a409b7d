(** Model of core/ratarmountcore/StenciledFile.py: [RawJoinedFileFromFactory], [LambdaReaderFile], [ZeroFile]. *)
From Verif Require Import PyBase Stencil_Model.
Local Open Scope Z_scope.

Section Joined.
  Context {A : Type}.

  (** RawJoinedFileFromFactory, StenciledFile.py:188-197.  A factory is represented by the content of the file it
      opens: each call opens that file at position 0.  [jf_open] is [self.fileObject]: index of the part that is open
      and the position of that file object.  Simplifications: all files are readable and seekable, the open file object
      is not closed by somebody else (273-274), the lock is not modelled here. *)
  Record jfile := mkJF {
    jf_offset : Z;
    jf_open : option (nat * Z);
    jf_sizes : list Z;
    jf_factories : list (list A);
    jf_cumsizes : list Z }.

  (** RawJoinedFileFromFactory.__init__, StenciledFile.py:194-214: the loop over the factories. *)
  Fixpoint jf_collect (factories : list (list A)) (sizes : list Z) (kept : list (list A)) (cum : list Z)
    : list Z * list (list A) * list Z :=
    match factories with
    | [] => (sizes, kept, cum)
    | f :: r =>
      let size := len f in
      if 0 <? size then jf_collect r (sizes ++ [size]) (kept ++ [f]) (cum ++ [last cum 0 + size])
      else jf_collect r sizes kept cum
    end.
  Definition jf_init (factories : list (list A)) : jfile :=
    let '(sizes, kept, cum) := jf_collect factories [] [] [0] in
    mkJF 0 None sizes kept cum.

  Definition jf_set (s : jfile) (offset : Z) (o : option (nat * Z)) : jfile :=
    mkJF offset o (jf_sizes s) (jf_factories s) (jf_cumsizes s).

  (** RawJoinedFileFromFactory._find_stencil, StenciledFile.py:216-221. *)
  Definition jf_find_stencil (s : jfile) (offset : Z) : res nat :=
    if offset <? 0 then Err AssertionError
    else match bisect_left (jf_cumsizes s) (offset + 1) with O => Err AssertionError | S i => Ok i end.

  (** RawJoinedFileFromFactory._get_file_object, StenciledFile.py:223-229: index and position of the now open part. *)
  Definition jf_get_file_object (s : jfile) (index : nat) : nat * Z :=
    match jf_open s with
    | Some (i, p) => if Nat.eqb i index then (i, p) else (index, 0)
    | None => (index, 0)
    end.

  (** RawJoinedFileFromFactory.read, StenciledFile.py:263-294. *)
  Definition jf_read (s : jfile) (size0 : Z) : res (list A) * jfile :=
    let size := if size0 =? -1 then lastZ (jf_cumsizes s) - jf_offset s else size0 in
    match jf_find_stencil s (jf_offset s) with
    | Err e => (Err e, s)
    | Ok i =>
      if Nat.leb (length (jf_sizes s)) i then (Ok [], s)
      else
        let '(idx, p0) := jf_get_file_object s i in
        let inside := jf_offset s - nth i (jf_cumsizes s) 0 in
        if inside <? 0 then (Err AssertionError, jf_set s (jf_offset s) (Some (idx, p0)))
        else if nth i (jf_sizes s) 0 <=? inside then (Err AssertionError, jf_set s (jf_offset s) (Some (idx, p0)))
        else
          let p1 := inside in
          let readable := Z.min size (nth i (jf_sizes s) 0 - (jf_offset s - nth i (jf_cumsizes s) 0)) in
          let tmp := file_read (nth idx (jf_factories s) []) p1 readable in
          (Ok tmp, jf_set s (jf_offset s + len tmp) (Some (idx, p1 + len tmp)))
    end.

  (** RawJoinedFileFromFactory.seek, StenciledFile.py:297-311. *)
  Definition jf_seek (s : jfile) (offset : Z) (w : whence) : Z * jfile :=
    let new := match w with
               | SEEK_CUR => jf_offset s + offset
               | SEEK_END => lastZ (jf_cumsizes s) + offset
               | SEEK_SET => offset
               end in
    let new := Z.max new 0 in
    (new, jf_set s new (jf_open s)).

  (** RawJoinedFileFromFactory.tell, StenciledFile.py:314-315. *)
  Definition jf_tell (s : jfile) : Z := jf_offset s.

  Definition jf_step (s : jfile) (o : op) : out A * jfile :=
    match o with
    | Seek off w => let '(p, s') := jf_seek s off w in (OPos p, s')
    | Read n => match jf_read s n with (Ok d, s') => (OData d, s') | (Err e, s') => (OErr e, s') end
    | Tell => (OPos (jf_tell s), s)
    end.

  Fixpoint jf_run (s : jfile) (ops : list op) : list (out A) :=
    match ops with
    | [] => []
    | o :: r => let '(x, s') := jf_step s o in x :: jf_run s' r
    end.

  (** State after a list of calls. *)
  Fixpoint jf_exec (s : jfile) (ops : list op) : jfile :=
    match ops with [] => s | o :: r => jf_exec (snd (jf_step s o)) r end.
End Joined.
Arguments jfile : clear implicits.

Section Lambda.
  Context {A : Type}.
  (** The callback: [rawRead(offset, size)]. *)
  Variable rawRead : Z -> Z -> list A.

  (** LambdaReaderFile state, StenciledFile.py:362-364.  [lf_log] records the ranges requested from the callback (ghost
      state for the statement about requests). *)
  Record lfile := mkLF { lf_offset : Z; lf_size : Z; lf_log : list (Z * Z) }.

  (** LambdaReaderFile.__init__, StenciledFile.py:358-364. *)
  Definition lf_init (size : Z) : lfile := mkLF 0 size [].

  (** LambdaReaderFile.read, StenciledFile.py:388-391. *)
  Definition lf_read (s : lfile) (size : Z) : list A * lfile :=
    let req := Z.min (if size <? 0 then lf_size s else size) (Z.max 0 (lf_size s - lf_offset s)) in
    let result := rawRead (lf_offset s) req in
    (result, mkLF (lf_offset s + len result) (lf_size s) (lf_log s ++ [(lf_offset s, req)])).

  (** LambdaReaderFile.seek, StenciledFile.py:394-407.  The position is assigned BEFORE the check. *)
  Definition lf_seek (s : lfile) (offset : Z) (w : whence) : res Z * lfile :=
    let new := match w with
               | SEEK_CUR => lf_offset s + offset
               | SEEK_END => lf_size s + offset
               | SEEK_SET => offset
               end in
    let s' := mkLF new (lf_size s) (lf_log s) in
    if new <? 0 then (Err ValueError, s') else (Ok new, s').

  Definition lf_step (s : lfile) (o : op) : out A * lfile :=
    match o with
    | Seek off w => match lf_seek s off w with (Ok p, s') => (OPos p, s') | (Err e, s') => (OErr e, s') end
    | Read n => let '(d, s') := lf_read s n in (OData d, s')
    | Tell => (OPos (lf_offset s), s)
    end.

  Fixpoint lf_run (s : lfile) (ops : list op) : list (out A) * lfile :=
    match ops with
    | [] => ([], s)
    | o :: r => let '(x, s') := lf_step s o in let '(xs, s'') := lf_run s' r in (x :: xs, s'')
    end.
End Lambda.

(** ZeroFile, StenciledFile.py:414-418: the callback [lambda offset, size: b"\x00" * size].  [zero] is the zero byte;
    [b"\x00" * n] is empty for negative [n]. *)
Definition zero_raw_read {A} (zero : A) (offset size : Z) : list A := repeat zero (Z.to_nat size).
