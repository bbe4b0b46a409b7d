(** Model of how /repo/core/ratarmountcore/mountsource/formats/tar.py decides whether the index found for a TAR archive can be used,
    and of the update of the index of an archive that has been appended to.

    The archive file is a list of whole 512-byte blocks, as in Tar_Model.v.  Left out: log messages; the comparison of the creation
    arguments, which only warns (tar.py 1296-1300); what happens to a rejected index (Locate_Model.v); the compressed case of creating
    an index (create_index below is that of an uncompressed archive). *)
From Coq Require Import Ascii String.
From Verif Require Import PyBase PyStr Path_Model FileInfo Strip_Model Index_Model Tar_Model.
Local Open Scope Z_scope.

(** The stored statistics of the archive ('tarstats', SQLiteIndex.py 455-471): keys may be missing. *)
Record stored := mkStored { st_size : option Z; st_mtime : option Z }.

(** [os.stat(...).st_size] and [tarFileObject.seek(0, io.SEEK_END)] of an uncompressed archive. *)
Definition file_size (archive : list block) : Z := 512 * Z.of_nat (length archive).

(** [(mode & 0xF000) == 0x8000 AND offsetheader IS NOT NULL], SQLiteIndex.FROM_REGULAR_FILES, SQLiteIndex.py 213. *)
Definition regular_row (r : row) : bool := Z.land (r_mode r) S_IFMT =? S_IFREG.

(** Rounding up to the next TAR block, tar.py 1150-1152. *)
Definition round_up (n : Z) : Z := if n mod 512 =? 0 then n else n + (512 - n mod 512).

(** The comparison of a stored row with a header that was read again, tar.py 1381-1405: path, istar, isgenerated and recursiondepth
    are not compared. *)
Definition same_header (a b : row) : bool :=
  str_eqb (r_name a) (r_name b) && (r_offsetheader a =? r_offsetheader b) && (r_offset a =? r_offset b) && (r_size a =? r_size b)
  && (r_mtime a =? r_mtime b) && (r_mode a =? r_mode b) && (r_type a =? r_type b) && str_eqb (r_linkname a) (r_linkname b)
  && (r_uid a =? r_uid b) && (r_gid a =? r_gid b) && Bool.eqb (r_issparse a) (r_issparse b).

(** The first header among some blocks: tarfile.open with mode 'r|' and ignore_zeros=True skips everything else. *)
Fixpoint first_header (bs : list block) : option (nat * member) :=
  match bs with
  | [] => None
  | Head m :: _ => Some (O, m)
  | _ :: bs => option_map (fun '(k, m) => (S k, m)) (first_header bs)
  end.

(** How checking rows can end: StopIteration is raised by [next(iter(archive))] (tar.py 1368) if there is no header in blocks that do
    exist; it is no tarfile.TarError. *)
Inductive checked := Valid | Invalid | StopIteration.

Section Open.
  (** Options as in Tar_Model.v, and the recursion depth plus one. *)
  Variable transform : str -> str.
  Variable strip : bool.
  Variable remount : option (str -> str).
  Variable ignore_zeros : bool.
  Variable levels : nat.
  (** The order of rows with equal offsets in the query for the last row, and the rows that ORDER BY RANDOM() selects. *)
  Variable tie : list row -> list row.
  Variable picked : list row -> list row.
  (** The thresholds 64 * 1024 * 1024 (tar.py 1209) and NUMBER_OF_METADATA_TO_VERIFY = 100 (SQLiteIndex.py 166), and the number of rows
      [limit] = 100 // 3 checked at each end. *)
  Variables min_size min_files : Z.
  Variable limit : nat.

  (** SQLiteIndexedTar._get_past_end_offset, tar.py 1125-1154. *)
  Definition past_end (table : list row) : res (option Z) :=
    match sort_by (fun r => - r_offset r) (tie table) with
    | [] => Err RatarmountError
    | r :: _ => Ok (if r_issparse r then None else Some (round_up (r_offset r + r_size r)))
    end.

  (** One round of SQLiteIndexedTar._check_rows_validity, tar.py 1357-1405: the header is searched in the blocks between the stored
      header offset and the stored data offset, and at least in one block. *)
  Definition check_row (archive : list block) (r : row) : checked :=
    let count := Z.max 1 ((r_offset r - r_offsetheader r + 511) / 512) in
    let bs := firstn (Z.to_nat count) (skipn (Z.to_nat (r_offsetheader r / 512)) archive) in
    match first_header bs with
    | Some (k, m) =>
      let real := file_row transform [] (r_offsetheader r) 0 k m in
      if (0 <=? r_recursiondepth r) && (r_recursiondepth r <=? 1) && same_header r real then Valid else Invalid
    | None => match bs with [] => Invalid | _ => StopIteration end
    end.

  (** SQLiteIndexedTar._check_rows_validity, tar.py 1351-1415. *)
  Fixpoint check_rows (archive : list block) (rows : list row) : checked :=
    match rows with
    | [] => Valid
    | r :: rows => match check_row archive r with Valid => check_rows archive rows | c => c end
    end.

  (** The rows that SQLiteIndexedTar._check_index_validity selects, tar.py 1336-1349.  Simplification: UNION would also sort the rows
      and drop duplicates. *)
  Definition checked_rows (table : list row) : list row :=
    let files := filter regular_row table in
    firstn limit (sort_by r_offset files) ++ picked files ++ firstn limit (sort_by (fun r => - r_offset r) files).

  (** SQLiteIndexedTar._try_to_mark_as_appended, tar.py 1156-1234: whether the archive is marked as appended to.  InvalidIndexError is
      RatarmountError here. *)
  Definition try_to_mark (compressed read_only same_version : bool) (old : stored) (size mtime count : Z) : res bool :=
    match st_size old, st_mtime old with
    | Some old_size, Some old_mtime =>
      if size <? old_size then Err RatarmountError
      else if mtime <? old_mtime then Err RatarmountError
      else if compressed then Err RatarmountError
      else if read_only then Ok false
      else if size <? min_size then Err RatarmountError
      else if count <? min_files then Err RatarmountError
      else if 3 * old_size <? size then Err RatarmountError
      else if negb same_version then Err RatarmountError
      else Ok true
    | _, _ => Err RatarmountError
    end.

  (** [file.read(1025) == b"\0" * 1024] for the 1024 bytes at [offset], tar.py 1272-1277. *)
  Definition ends_at (archive : list block) (offset : Z) : bool :=
    match skipn (Z.to_nat (offset / 512)) archive with Zero :: Zero :: _ => true | _ => false end.

  (** SQLiteIndexedTar._check_metadata2, tar.py 1246-1334: an error, or whether the archive was marked as appended to.  [old] is None if
      there are no stored statistics or if the archive is no file that exists; [named] tells whether the index names its backend. *)
  Definition check (verify_mtime compressed read_only same_version named : bool) (old : option stored) (archive : list block)
      (size mtime : Z) (table : list row) : res bool :=
    let count := Z.of_nat (length table) in
    bind (match old with
      | None => Ok false
      | Some old =>
        bind (match st_size old with
          | Some old_size =>
            if size <? old_size then Err RatarmountError
            else if old_size <? size then try_to_mark compressed read_only same_version old size mtime count
            else Ok false
          | None => Ok false
          end) (fun marked =>
        bind (past_end table) (fun last =>
        bind (match last with
          | Some offset =>
            if compressed || (offset =? 0) || ends_at archive offset then Ok marked
            else bind (try_to_mark compressed read_only same_version old size mtime count) (fun again => Ok (marked || again))
          | None => Ok marked
          end) (fun marked =>
        match st_mtime old with
        | Some old_mtime => if negb marked && verify_mtime && negb (mtime =? old_mtime) then Err RatarmountError else Ok marked
        | None => Ok marked
        end)))
      end) (fun marked =>
    if named then Ok marked
    else match check_rows archive (firstn 2 (sort_by r_offset (filter regular_row table))) with
         | Valid => Ok marked
         | Invalid => Err RatarmountError
         | StopIteration => Err RuntimeError
         end).

  (** Indexing the appended part into the existing tables, tar.py 696-710 and SQLiteIndex.create_index_timed, SQLiteIndex.py 731-742:
      the auxiliary tables are created again, the cache of parent folders is empty. *)
  Definition update (archive : list block) (table : list row) (offset : Z) : list row :=
    let rest := region archive offset (file_size archive - offset) in
    finalize (fold_left insert (index_part transform strip remount ignore_zeros archive levels 0 rest [] offset) (mkIndex table [] [] [])).

  Inductive outcome :=
  | Used (table : list row)          (* the index as found *)
  | Updated (table : list row)       (* after adding the appended part *)
  | Recreated (table : list row)     (* the archive was indexed from the start *)
  | Failed (e : exn).                (* the archive cannot be opened *)

  (** SQLiteIndexedTar.__init__ after an index was found, tar.py 682-735 (StopIteration appears as RuntimeError).  An index whose check
      raises anything is not loaded (SQLiteIndex._try_load_index, SQLiteIndex.py 1338-1384), so the archive is indexed again. *)
  Definition open_index (verify_mtime compressed read_only same_version named : bool) (old : option stored) (archive : list block)
      (mtime : Z) (table : list row) : outcome :=
    let size := file_size archive in
    let recreate := match create_index transform strip remount ignore_zeros levels archive with
                    | Ok t => Recreated t | Err e => Failed e end in
    match check verify_mtime compressed read_only same_version named old archive size mtime table with
    | Err _ => recreate
    | Ok false => Used table
    | Ok true =>
      match past_end table with
      | Err e => Failed e
      | Ok None => recreate
      | Ok (Some offset) =>
        if compressed || (offset =? 0) then recreate
        else match check_rows archive (checked_rows table) with
             | StopIteration => Failed RuntimeError
             | Invalid => recreate
             | Valid => if size <? offset then Failed AssertionError else Updated (update archive table offset)
             end
      end
    end.
End Open.
