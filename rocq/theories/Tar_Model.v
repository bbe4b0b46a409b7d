(** Model of how /repo/core/ratarmountcore/mountsource/formats/tar.py reads the members of a TAR archive into the index.

    An archive is a list of 512-byte blocks.  The parsing of a header (Python's tarfile) is not modelled: a block is a zero block,
    a block at which a member's header starts, or any other block.  Left out: xattrs, the stripping of time stamp prefixes in GNU
    incremental archives (tar.py 152-191), the patches for sparse files (tar.py 427-447), the progress bar. *)
From Coq Require Import Ascii String.
From Verif Require Import PyBase PyStr Path_Model FileInfo Strip_Model Index_Model.
Local Open Scope Z_scope.

(** tarfile.TarInfo: name, type flag, permission bits, size as reported, and the layout: [m_extra] further header blocks (long
    names, pax headers, sparse maps) and [m_blocks] blocks of data that tarfile skips to get to the next header. *)
Record member := mkMember {
  m_name : str; m_type : ascii; m_mode : Z; m_size : Z; m_mtime : Z; m_link : str; m_uid : Z; m_gid : Z; m_sparse : bool;
  m_extra : nat; m_blocks : nat }.

(** TarInfo.isdir, isfile (REGTYPE, AREGTYPE, CONTTYPE, GNUTYPE_SPARSE), issym, ischr, isfifo (Lib/tarfile.py). *)
Definition isdir (m : member) : bool := char_eqb (m_type m) "5".
Definition isfile (m : member) : bool := existsb (char_eqb (m_type m)) ["0"; "000"; "7"; "S"]%char.
Definition issym (m : member) : bool := char_eqb (m_type m) "2".
Definition ischr (m : member) : bool := char_eqb (m_type m) "3".
Definition isfifo (m : member) : bool := char_eqb (m_type m) "6".

Inductive block := Zero | Head (m : member) | Other (contents : nat).

(** _TarFileMetadataReader._tar_info_full_mode, tar.py 134-150. *)
Definition full_mode (m : member) : Z :=
  Z.lor (Z.lor (Z.lor (Z.lor (Z.lor (m_mode m)
    (if isdir m then S_IFDIR else 0))
    (if isfile m || char_eqb (m_type m) "D" then S_IFREG else 0))
    (if issym m then S_IFLNK else 0))
    (if ischr m then 8192 else 0))
    (if isfifo m then 4096 else 0).

(** Iterating over a tarfile.TarFile opened with mode 'r:' (Lib/tarfile.py TarFile.next): the positions and members, starting
    with the header at block [pos], and whether the end was reached without "unexpected end of data".  A block that is no header
    ends the archive, or is skipped with ignore_zeros.  [fuel] bounds the number of blocks. *)
Fixpoint scan (ignore_zeros : bool) (fuel pos : nat) (bs : list block) : list (nat * member) * bool :=
  match fuel with
  | O => ([], true)
  | S fuel =>
    match nth_error bs pos with
    | None => ([], Nat.leb pos (length bs))
    | Some (Head m) =>
      let '(l, complete) := scan ignore_zeros fuel (pos + 1 + m_extra m + m_blocks m) bs in ((pos, m) :: l, complete)
    | Some _ => if ignore_zeros then scan ignore_zeros fuel (pos + 1) bs else ([], true)
    end
  end.
Definition members (ignore_zeros : bool) (bs : list block) : list (nat * member) * bool :=
  scan ignore_zeros (S (length bs)) 0 bs.

(** create_folder_from_file_permissions, utils.py 412-419. *)
Definition folder_mode (mode : Z) : Z :=
  Z.lor (Z.lor (Z.lor (Z.lor (Z.land mode 511) S_IFDIR)
    (if Z.land mode 256 =? 0 then 0 else 64)) (if Z.land mode 32 =? 0 then 0 else 8)) (if Z.land mode 4 =? 0 then 0 else 1).

(** [path.rsplit('/', 1)] of a path that holds a slash. *)
Definition split_last (path : str) : str * str := match rsplit1 slash path with Some p => p | None => ([], path) end.

Definition with_istar (r : row) : row :=
  mkRow (r_path r) (r_name r) (r_offsetheader r) (r_offset r) (r_size r) (r_mtime r) (r_mode r) (r_type r) (r_linkname r)
    (r_uid r) (r_gid r) true (r_issparse r) (r_isgenerated r) (r_recursiondepth r).

Section Indexing.
  (** The options: [self.transform], stripRecursiveTarExtension, the regular expression substitution of
      transformRecursiveMountPoint (if given), ignoreZeros. *)
  Variable transform : str -> str.
  Variable strip : bool.
  Variable remount : option (str -> str).
  Variable ignore_zeros : bool.

  (** The row of a member, _TarFileMetadataReader._process_tar_info, tar.py 233-260. *)
  Definition file_row (prefix : str) (stream depth : Z) (pos : nat) (m : member) : row :=
    let fullPath := prefix ++ $"/" ++ m_name m ++ (if isdir m then $"/" else []) in
    let '(path, name) := split_last (normpath (transform fullPath)) in
    mkRow path name (stream + 512 * Z.of_nat pos) (stream + 512 * Z.of_nat (pos + 1 + m_extra m)) (m_size m) (m_mtime m)
      (full_mode m) (Z.of_nat (nat_of_ascii (m_type m))) (m_link m) (m_uid m) (m_gid m) false (m_sparse m) false depth.

  (** [tarInfo.isfile() and tarInfo.name.lower().endswith('.tar')], tar.py 264. *)
  Definition might_be_tar (m : member) : bool := isfile m && ends_with $".tar" (map lower (m_name m)).

  (** All rows of a member, tar.py 262-278: a GNU incremental folder entry also gets a folder row. *)
  Definition file_rows (prefix : str) (stream depth : Z) (pos : nat) (m : member) : list row :=
    let r := file_row prefix stream depth pos m in
    if char_eqb (m_type m) "D" then
      [r; mkRow (r_path r) (r_name r) (r_offsetheader r + 1) (r_offset r) 0 (r_mtime r) (Z.lor (m_mode m) S_IFDIR) (r_type r)
            (r_linkname r) (r_uid r) (r_gid r) false (r_issparse r) false depth]
    else [r].

  (** The mount point of a nested archive, tar.py 865-882: the path, and the folder and name of the new row. *)
  Definition mount_point (r : row) : str * (str * str) :=
    let name := if strip && ends_with $".tar" (map lower (r_name r)) then firstn (length (r_name r) - 4) (r_name r) else r_name r in
    let path := slash :: lstrip slash (r_path r ++ $"/" ++ name) in
    match remount with
    | Some f => let path := slash :: lstrip slash (f path) in (path, split_last path)
    | None => (path, (r_path r, name))
    end.

  (** The folder row for a nested archive, tar.py 914-936.  A row at another place keeps the offsets. *)
  Definition mounted_row (r : row) (folder name : str) : row :=
    let moved := negb (str_eqb folder (r_path r)) || negb (str_eqb name (r_name r)) in
    mkRow folder name (if moved then r_offsetheader r else r_offsetheader r + 1) (if moved then r_offset r else r_offset r + 1)
      (r_size r) (r_mtime r) (folder_mode (r_mode r)) (r_type r) (r_linkname r) (r_uid r) (r_gid r) true (r_issparse r) true
      (r_recursiondepth r + 1).

  (** [StenciledFile([(self.tarFileObject, globalOffset, size)])], tar.py 895.  Simplification: whole blocks. *)
  Definition region (archive : list block) (offset size : Z) : list block :=
    firstn (Z.to_nat (size / 512)) (skipn (Z.to_nat (offset / 512)) archive).

  (** SQLiteIndexedTar._create_index_recursively and _TarFileMetadataReader._process_serial / process, tar.py 392-497 and 849-944,
      as the sequence of insertions into the index.  [levels] is maxRecursionDepth + 1 - recursionDepth.  An incomplete archive
      keeps its rows, but its nested archives are not looked at (tar.py 479-496).  A nested archive that cannot be read as TAR
      raises nothing because _open_tar (tar.py 367-390) returns an empty list.  The rows are inserted in one batch instead of
      batches of 1000. *)
  Fixpoint index_part (archive : list block) (levels : nat) (depth : Z) (bs : list block) (prefix : str) (stream : Z)
    : list insertion :=
    match levels with
    | O => []
    | S l =>
      let '(found, complete) := members ignore_zeros bs in
      let nested := if complete && negb (Nat.eqb l 0) then filter (fun '(_, m) => might_be_tar m) found else [] in
      Batch (flat_map (fun '(pos, m) => file_rows prefix stream depth pos m) found)
      :: flat_map (fun '(pos, m) =>
           let r := file_row prefix stream depth pos m in
           let '(path, (folder, name)) := mount_point r in
           index_part archive l (depth + 1) (region archive (r_offset r) (r_size r)) path (r_offset r)
           ++ [One (mounted_row r folder name); One (with_istar r)])
         nested
    end.

  (** SQLiteIndexedTar._create_index of an uncompressed archive, tar.py 835-847 and 946-957: no member at all is an error. *)
  Definition create_index (levels : nat) (archive : list block) : res (list row) :=
    match build (index_part archive levels 0 archive [] 0) with
    | [] => Err RatarmountError
    | rows => Ok rows
    end.
End Indexing.
