(** Model of opening and reading members of core/ratarmountcore/mountsource/formats/tar.py.  Reading the TAR header again with the tarfile
    module of the standard library, which gives the sparse map and the real size, is external. *)
From Verif Require Import PyBase Stencil_Model.
Local Open Scope Z_scope.

(** BLOCK_SIZE, tar.py (the TAR block size). *)
Definition block_size : Z := 512.

(** The loop over the sparse map, tar.py:1067-1084: stencils (is_null, offset, size) and lastEnd. *)
Fixpoint sparse_loop (lastEnd tarOffset : Z) (entries : list (Z * Z)) : res (list (bool * Z * Z) * Z) :=
  match entries with
  | [] => Ok ([], lastEnd)
  | (offset, size) :: r =>
    if (offset =? 0) && (size =? 0) then sparse_loop lastEnd tarOffset r
    else if offset <? lastEnd then Err RatarmountError
    else if negb (tarOffset mod block_size =? 0) && (0 <? size) then Err RatarmountError
    else bind (sparse_loop (offset + size) (tarOffset + size) r) (fun '(stencils, last) =>
           Ok ((if lastEnd <? offset then [(true, 0, offset - lastEnd)] else []) ++ (false, tarOffset, size) :: stencils, last))
  end.

(** max(x[2] for x in stencils if x[0]): ValueError for an empty sequence. *)
Definition hole_sizes (stencils : list (bool * Z * Z)) : list Z := map snd (filter (fun s => fst (fst s)) stencils).
Definition py_max (l : list Z) : res Z := match l with [] => Err ValueError | x :: r => Ok (fold_left Z.max r x) end.

(** SQLiteIndexedTar.open for a sparse member, tar.py:1062-1099: the size of the file of zeros and the stencils for _open_stencil.
    File 0 is the archive, file 1 the zeros. *)
Definition open_sparse (tarOffset realFileSize : Z) (entries : list (Z * Z)) : res (Z * list (nat * Z * Z)) :=
  bind (sparse_loop 0 tarOffset entries) (fun '(stencils, lastEnd) =>
  if realFileSize <? lastEnd then Err RatarmountError
  else
    let stencils := stencils ++ (if lastEnd <? realFileSize then [(true, 0, realFileSize - lastEnd)] else []) in
    bind (py_max (hole_sizes stencils)) (fun zeros =>
    Ok (zeros, map (fun '(is_null, offset, size) => ((if is_null : bool then 1%nat else 0%nat), offset, size)) stencils))).

(** SQLiteIndexedTar.open for other members, tar.py:1026-1029. *)
Definition open_plain (offset size : Z) : list (nat * Z * Z) := [(0%nat, offset, size)].
(** SQLiteIndexedTar.read for other members, tar.py:1109-1111: the archive file object is read directly; a negative position is an error. *)
Definition read_plain {A} (archive : list A) (member_offset member_size size offset : Z) : res (list A) :=
  if member_offset + offset <? 0 then Err ValueError else Ok (file_read archive (member_offset + offset) size).
