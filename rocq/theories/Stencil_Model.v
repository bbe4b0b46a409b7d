(** Model of core/ratarmountcore/StenciledFile.py: [RawStenciledFile]. *)
From Verif Require Import PyBase.
Local Open Scope Z_scope.

Section Model.
  Context {A : Type}.

  (** Content of the underlying file objects, identified by numbers.  Simplification: the files are not modified and
      not closed while they are used (StenciledFile.py:127-128 raises ValueError for closed ones), all are readable
      (69-71). *)
  Variable fc : nat -> list A.

  (** One entry of [fileStencils]: (file object, offset, size), StenciledFile.py:21. *)
  Definition stencil : Type := (nat * Z * Z)%type.

  (** State of one [RawStenciledFile] (StenciledFile.py:46-50,74) together with the positions of the shared underlying
      file objects.  [sizes], [offsets], [fileObjects] are the parallel lists of the code. *)
  Record sfile := mkSF {
    sf_offset : Z;
    sf_objs : list nat;
    sf_offsets : list Z;
    sf_sizes : list Z;
    sf_cumsizes : list Z }.

  Definition set_offset (s : sfile) (o : Z) : sfile :=
    mkSF o (sf_objs s) (sf_offsets s) (sf_sizes s) (sf_cumsizes s).

  (** StenciledFile.py:74-76: [self.cumsizes = [0]; for size in sizes: append(cumsizes[-1] + size)]. *)
  Fixpoint cumsum (acc : Z) (sizes : list Z) : list Z :=
    acc :: match sizes with [] => [] | s :: r => cumsum (acc + s) r end.

  (** [l[-1]] of a non-empty list. *)
  Definition lastZ (l : list Z) : Z := last l 0.

  (** RawStenciledFile.seek, StenciledFile.py:159-172.  The position is assigned BEFORE the check. *)
  Inductive whence := SEEK_SET | SEEK_CUR | SEEK_END.
  Definition sf_seek (s : sfile) (offset : Z) (w : whence) : res Z * sfile :=
    let new := match w with
               | SEEK_CUR => sf_offset s + offset
               | SEEK_END => lastZ (sf_cumsizes s) + offset
               | SEEK_SET => offset
               end in
    let s' := set_offset s new in
    if new <? 0 then (Err ValueError, s') else (Ok new, s').

  (** RawStenciledFile.__init__, StenciledFile.py:44-79. *)
  Definition sf_init (stencils : list stencil) : res sfile :=
    if negb (forallb (fun '(_, o, _) => 0 <=? o) stencils) then Err AssertionError
    else if negb (forallb (fun '(_, _, s) => 0 <=? s) stencils) then Err AssertionError
    else
      let selected := filter (fun '(_, _, s) => 0 <? s) stencils in
      let objs := map (fun '(f, _, _) => f) selected in
      let offsets := map (fun '(_, o, _) => o) selected in
      let sizes := map (fun '(_, _, s) => s) selected in
      let '(r, s) := sf_seek (mkSF 0 objs offsets sizes (cumsum 0 sizes)) 0 SEEK_SET in
      match r with Ok _ => Ok s | Err e => Err e end.

  (** RawStenciledFile._find_stencil, StenciledFile.py:81-93. *)
  Definition find_stencil (s : sfile) (offset : Z) : res nat :=
    if offset <? 0 then Err AssertionError
    else let i := bisect_left (sf_cumsizes s) (offset + 1) in
         match i with O => Err AssertionError | S i' => Ok i' end.

  (** RawStenciledFile._read1_unlocked, StenciledFile.py:118-139.  [pos] are the positions of the underlying file
      objects: [seek] sets the one of file [i] (133) and [read] reads from it (137). *)
  Definition sf_read1 (s : sfile) (pos : nat -> Z) (size : Z) : res (list A) * sfile * (nat -> Z) :=
    if size <? 0 then (Err AssertionError, s, pos)
    else match find_stencil s (sf_offset s) with
    | Err e => (Err e, s, pos)
    | Ok i =>
      if Nat.leb (length (sf_sizes s)) i then (Ok [], s, pos)
      else
        let f := nth i (sf_objs s) O in
        let inside := sf_offset s - nth i (sf_cumsizes s) 0 in
        if inside <? 0 then (Err AssertionError, s, pos)
        else if nth i (sf_sizes s) 0 <=? inside then (Err AssertionError, s, pos)
        else
          let pos1 := upd pos f (nth i (sf_offsets s) 0 + inside) in
          let readable := Z.min size (nth i (sf_sizes s) 0 - (sf_offset s - nth i (sf_cumsizes s) 0)) in
          let tmp := file_read (fc f) (pos1 f) readable in
          let pos2 := upd pos1 f (pos1 f + len tmp) in
          (Ok tmp, set_offset s (sf_offset s + len tmp), pos2)
    end.

  (** The loop of RawStenciledFile.read, StenciledFile.py:150-154. *)
  Fixpoint sf_read_loop (fuel : nat) (s : sfile) (pos : nat -> Z) (size : Z) (result : list A)
    : res (list A) * sfile * (nat -> Z) :=
    match fuel with
    | O => (Err OutOfFuel, s, pos)
    | S fuel' =>
      if len result <? size then
        match sf_read1 s pos (size - len result) with
        | (Err e, s', pos') => (Err e, s', pos')
        | (Ok [], s', pos') => (Ok result, s', pos')
        | (Ok tmp, s', pos') => sf_read_loop fuel' s' pos' size (result ++ tmp)
        end
      else (Ok result, s, pos)
    end.

  (** RawStenciledFile.read, StenciledFile.py:142-156.  Simplification: the lock is not modelled here (see
      Conc_Model.v).  The fuel exceeds the number of iterations because each iteration gets at least one byte. *)
  Definition sf_read (s : sfile) (pos : nat -> Z) (size : Z) : res (list A) * sfile * (nat -> Z) :=
    if size =? 0 then (Ok [], s, pos)
    else
      let size' := if size =? -1 then lastZ (sf_cumsizes s) - sf_offset s else size in
      sf_read_loop (S (S (Z.to_nat size'))) s pos size' [].

  (** RawStenciledFile.tell, StenciledFile.py:175-176. *)
  Definition sf_tell (s : sfile) : Z := sf_offset s.

  (** One call by the user. *)
  Inductive op := Seek (o : Z) (w : whence) | Read (n : Z) | Tell.
  Inductive out := OPos (p : Z) | OData (d : list A) | OErr (e : exn).

  Definition sf_step (st : sfile * (nat -> Z)) (o : op) : out * (sfile * (nat -> Z)) :=
    let '(s, pos) := st in
    match o with
    | Seek off w => match sf_seek s off w with
                    | (Ok p, s') => (OPos p, (s', pos))
                    | (Err e, s') => (OErr e, (s', pos))
                    end
    | Read n => match sf_read s pos n with
                | (Ok d, s', pos') => (OData d, (s', pos'))
                | (Err e, s', pos') => (OErr e, (s', pos'))
                end
    | Tell => (OPos (sf_tell s), st)
    end.

  Fixpoint sf_run (st : sfile * (nat -> Z)) (ops : list op) : list out :=
    match ops with
    | [] => []
    | o :: r => let '(x, st') := sf_step st o in x :: sf_run st' r
    end.
End Model.

Arguments op : clear implicits.
Arguments out : clear implicits.
