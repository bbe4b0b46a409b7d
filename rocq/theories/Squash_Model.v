(** Model of the SquashFS backend, /repo/core/ratarmountcore/mountsource/formats/squashfs.py: the file object, the iteration over the
    inodes, the index and open.

    PySquashfsImage is given by what it reads: for a file its size, the list of its blocks ([None]: a sparse block, whose entry in the
    block list is 0; [Some d]: _read_data_block gives d) and the bytes of its fragment. *)
From Coq Require Import Ascii String.
From Verif Require Import PyBase PyStr Path_Model FileInfo Index_Model Tar_Model.
Local Open Scope Z_scope.

Section File.
  Context {A : Type}.
  Variable zero : A.
  Record squash_file := mkSF { sq_size : Z; sq_blocks : list (option (list A)); sq_fragment : option (list A) }.
  Variable file : squash_file.
  Variable block_size : Z.

  (** SquashFSFile: _offset, _blockIndex, _buffer and the position of _bufferIO, squashfs.py 146 and 177-180 *)
  Record sq_state := mkSQ { s_offset : Z; s_block : Z; s_buffer : list A; s_pos : Z }.

  (** SquashFSFile._refill_buffer, squashfs.py 182-202; the new BytesIO starts at 0.  The fragment is _read_data_block( *self._fragment)
      cut to the part of this file; self._fragment is None if the inode has no fragment bytes. *)
  Definition refill (offset blockIndex : Z) : res sq_state :=
    if blockIndex <? 0 then Err AssertionError
    else
      let n := Z.of_nat (length (sq_blocks file)) in
      let buffer :=
        if blockIndex <? n then
          match nth_error (sq_blocks file) (Z.to_nat blockIndex) with
          | Some (Some d) => d
          | _ =>
            let blockSize := if sq_size file <=? (blockIndex + 1) * block_size
                             then Z.max 0 (sq_size file - blockIndex * block_size) else block_size in
            repeat zero (Z.to_nat blockSize)
          end
        else match sq_fragment file with
             | Some d => if blockIndex =? n then d else []
             | None => []
             end in
      Ok (mkSQ offset blockIndex buffer 0).

  (** SquashFSFile.__init__, squashfs.py 142-180 *)
  Definition sq_open : res sq_state := refill 0 0.

  (** BytesIO.read(size) of the buffer *)
  Definition buffer_read (st : sq_state) (size : Z) : list A * sq_state :=
    let d := file_read (s_buffer st) (s_pos st) size in
    (d, mkSQ (s_offset st) (s_block st) (s_buffer st) (s_pos st + len d)).

  (** SquashFSFile.read1, squashfs.py 212-222 *)
  Definition read1 (st : sq_state) (size : Z) : res (list A * sq_state) :=
    let '(result, st') := buffer_read st size in
    match result, s_buffer st with
    | _ :: _, _ => Ok (result, st')
    | [], [] => Ok (result, st')
    | [], _ :: _ => match refill (s_offset st') (s_block st' + 1) with Ok st'' => Ok (buffer_read st'' size) | Err e => Err e end
    end.

  (** SquashFSFile.read, squashfs.py 225-232 *)
  Fixpoint read_loop (fuel : nat) (st : sq_state) (size : Z) (result : list A) : res (list A * sq_state) :=
    match fuel with
    | O => Err OutOfFuel
    | S fuel =>
      if (size <? 0) || (len result <? size) then
        match read1 st (if size <? 0 then size else size - len result) with
        | Err e => Err e
        | Ok ([], st) => Ok (result, st)
        | Ok (data, st) => read_loop fuel st size (result ++ data)
        end
      else Ok (result, st)
    end.
  Definition sq_read (st : sq_state) (size : Z) : res (list A * sq_state) := read_loop (S (S (S (length (sq_blocks file))))) st size [].

  (** SquashFSFile.seek, squashfs.py 252-268: whence 0, 1, 2 are SEEK_SET, SEEK_CUR and SEEK_END *)
  Definition sq_seek (st : sq_state) (offset : Z) (whence : Z) : res (Z * sq_state) :=
    let here := s_offset st in
    let offset := if whence =? 1 then offset + here else if whence =? 2 then offset + sq_size file else offset in
    let clipped := Z.max 0 (Z.min offset (sq_size file)) in
    let bufferOffset := s_block st * block_size in
    let filled := if (offset <? bufferOffset) || (bufferOffset + len (s_buffer st) <=? offset) then refill clipped (offset / block_size)
                  else Ok (mkSQ clipped (s_block st) (s_buffer st) (s_pos st)) in
    match filled with
    | Err e => Err e
    | Ok st =>
      let pos := offset - s_block st * block_size in
      if pos <? 0 then Err ValueError else Ok (clipped, mkSQ clipped (s_block st) (s_buffer st) pos)
    end.
  (** SquashFSFile.tell, squashfs.py 271-274 *)
  Definition sq_tell (st : sq_state) : Z := s_offset st.
End File.
Arguments squash_file A : clear implicits.
Arguments sq_state A : clear implicits.

(** The directory tree of an image as PySquashfsImage reads it: an inode is referred to by the start of its metadata block and an offset
    in it.  Directory entries and inodes agree about the type.  [SqOther]: devices, FIFOs and sockets. *)
Inductive sq_kind := SqDirectory | SqRegular | SqSymlink | SqOther.
Record sq_inode := mkSI { si_start : Z; si_offset : Z; si_kind : sq_kind; si_mode : Z; si_size : Z; si_time : Z; si_target : str }.
Inductive sq_tree := SqTree (i : sq_inode) (entries : list (str * sq_tree)).

Definition is_directory (i : sq_inode) : bool := match si_kind i with SqDirectory => true | _ => false end.

(** SquashFSImage._join_inode_offset and _split_inode_offset, squashfs.py 328-336 *)
Definition join_inode_offset (start_block offset : Z) : res Z :=
  if negb (start_block <? 2 ^ 32) then Err AssertionError
  else if negb (offset <? 2 ^ 16) then Err AssertionError
  else Ok (Z.shiftl start_block 16 + offset).
Definition split_inode_offset (inode_offset : Z) : Z * Z := (Z.shiftr inode_offset 16, Z.land inode_offset 65535).

(** SquashFSImage.__iter__, _open_directory and _recursive_inodes_iterator, squashfs.py 340-373: what is yielded, with the names from the
    root down to the file.  An assertion in a generator ends the whole iteration. *)
Fixpoint iterate (names : list str) (t : sq_tree) : res (list (Z * (list str * sq_inode))) :=
  match t with
  | SqTree i entries =>
    match join_inode_offset (si_start i) (si_offset i) with
    | Err e => Err e
    | Ok o =>
      match (if is_directory i then
               (fix all entries := match entries with
                                   | [] => Ok []
                                   | (name, c) :: entries =>
                                     match iterate (names ++ [name]) c with
                                     | Err e => Err e
                                     | Ok a => match all entries with Err e => Err e | Ok b => Ok (a ++ b) end
                                     end
                                   end) entries
             else Ok []) with
      | Err e => Err e
      | Ok below => Ok ((o, (names, i)) :: below)
      end
    end
  end.

(** PySquashfsImage.file.File.path: the names from the root, each after a slash *)
Definition path_of (names : list str) : str := slash :: join $"/" names.

(** SquashFSMountSource._convert_to_row, squashfs.py 418-456 *)
Definition squash_row (transform : str -> str) (entry : Z * (list str * sq_inode)) : row :=
  let '(inodeOffset, (names, i)) := entry in
  let linkname := match si_kind i with SqSymlink => si_target i | _ => [] end in
  let mode := match si_kind i with
              | SqSymlink => Z.lor (si_mode i) S_IFLNK
              | _ => Z.lor (si_mode i) (if is_directory i then S_IFDIR else S_IFREG)
              end in
  let '(path, name) := split_last (normpath (transform (path_of names))) in
  let fileSize := match si_kind i with SqRegular => si_size i | _ => 0 end in
  mkRow path name inodeOffset 0 fileSize (si_time i) mode 0 linkname 0 0 false false false 0.
(** SquashFSMountSource._create_index, squashfs.py 458-463 *)
Definition squash_index (transform : str -> str) (root : sq_tree) : res (list row) :=
  match iterate [] root with Err e => Err e | Ok l => Ok (build [Batch (map (squash_row transform) l)]) end.
(** SquashFSMountSource.open and SquashFSImage.read_inode, squashfs.py 338-340 and 484-489.  [read_inode] is
    _read_inode; get_index_userdata takes the first item of the user data that is of the index. *)
Definition squash_open {I} (read_inode : Z -> Z -> I) (f : finfo tar_data) : res I :=
  match fi_userdata f with
  | [] => Err AssertionError
  | d :: _ => let '(start, offset) := split_inode_offset (u_offsetheader d) in Ok (read_inode start offset)
  end.
