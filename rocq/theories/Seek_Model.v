(** Model of the seek point tables in the index: core/ratarmountcore/SQLiteIndex.py 1386-1602. *)
From Coq Require Import List ZArith Bool.
From Verif Require Import PyBase Blob_Model.
Import ListNotations.
Local Open Scope Z_scope.

(** The tables of clear_compression_offsets, SQLiteIndex.py 1386-1388. *)
Inductive table := Bzip2Blocks | GzipIndex | GzipIndexes | GzToolIndex | ZstdBlocks.
Definition table_eqb (a b : table) : bool :=
  match a, b with
  | Bzip2Blocks, Bzip2Blocks | GzipIndex, GzipIndex | GzipIndexes, GzipIndexes | GzToolIndex, GzToolIndex | ZstdBlocks, ZstdBlocks => true
  | _, _ => false
  end.

(** FileFormatID, as far as synchronize_compression_offsets tells the formats apart. *)
Inductive compression := Gzip | Zlib | Bzip2 | Zstandard | Xz | OtherFormat.

Section Model.
  Context {A : Type}.

  (** Rows: the blobs of the gzip tables ("data BLOB", SQLiteIndex.py 1564) and the pairs of the block tables (line 1450). *)
  Inductive row := Blob (data : list A) | Offsets (block data : Z).

  (** The tables that exist and their rows in the order of insertion.  Simplification: SELECT gives the rows of a block table by their
      key instead, which is the same to dict(). *)
  Definition db : Type := table -> option (list row).
  Definition set_table (s : db) (t : table) (c : option (list row)) : db := fun u => if table_eqb u t then c else s u.

  Inductive stmt := Drop (t : table) | Create (t : table) | Insert (t : table) (r : row) | RenameGzip | Commit.

  (** DROP TABLE IF EXISTS, CREATE TABLE, INSERT INTO, and ALTER TABLE gzipindexes RENAME TO gzipindex. *)
  Definition exec (s : db) (q : stmt) : db :=
    match q with
    | Drop t => set_table s t None
    | Create t => set_table s t (Some [])
    | Insert t r => match s t with Some rows => set_table s t (Some (rows ++ [r])) | None => s end
    | RenameGzip => set_table (set_table s GzipIndex (s GzipIndexes)) GzipIndexes None
    | Commit => s
    end.
  Definition exec_all (s : db) (qs : list stmt) : db := fold_left exec qs s.

  (** The file object given to synchronize_compression_offsets.  [d_rapid]: it is a rapidgzip.RapidgzipFile; [d_formats]: rapidgzip has
      IndexFormat; [d_methods]: it has set_block_offsets and block_offsets, or import_index and export_index.  [d_accepts]: import_index
      takes these bytes without raising.  [d_exports], [d_fails]: what export_index writes, and what it raises then.  [d_blocks]:
      block_offsets(); [d_takes]: set_block_offsets does not raise. *)
  Record decoder := mkDecoder {
    d_rapid : bool; d_formats : bool; d_methods : bool;
    d_accepts : list A -> bool; d_exports : list (list A); d_fails : option exn;
    d_blocks : list (Z * Z); d_takes : list (Z * Z) -> bool }.

  (** What a call comes to: data was imported, block offsets were set, the data was built and stored, nothing was done, it raised. *)
  Inductive outcome := Loaded (data : list A) | LoadedBlocks (blocks : list (Z * Z)) | Built | Skipped | Raised (e : exn).

  Definition is_some {X} (o : option X) : bool := match o with Some _ => true | None => false end.

  Definition blob_of (r : row) : list A := match r with Blob b => b | Offsets _ _ => [] end.
  Definition pair_of (r : row) : Z * Z := match r with Blob _ => (0, 0) | Offsets b d => (b, d) end.

  (** The candidate tables of _load_gzip_index, SQLiteIndex.py 1486-1494. *)
  Definition index_tables (s : db) (d : decoder) : list table :=
    (if is_some (s GzToolIndex) && d_rapid d then [GzToolIndex] else []) ++
    filter (fun t => is_some (s t)) [GzipIndexes; GzipIndex].

  (** _load_gzip_index, SQLiteIndex.py 1476-1533: the imported data.  The bytes of the joined blob file are the blobs one after another
      (Blob_Props.C08_blobs_read_back). *)
  Fixpoint load_from (s : db) (d : decoder) (tables : list table) : option (list A) :=
    match tables with
    | [] => None
    | t :: rest =>
        let data := concat (map blob_of (match s t with Some rows => rows | None => [] end)) in
        if d_accepts d data then Some data else load_from s d rest
    end.
  Definition load_gzip_index (s : db) (d : decoder) : option (list A) := load_from s d (index_tables s d).

  (** (indexed_gzip.ZranError, RuntimeError, ValueError), SQLiteIndex.py 1575; a ZranError is a RatarmountError here.  Without
      indexed_gzip, evaluating this tuple raises a NameError, for which PyBase has no value: AttributeError is used. *)
  Definition handled (e : exn) : bool := match e with RatarmountError | RuntimeError | ValueError => true | _ => false end.

  (** _store_gzip_index, SQLiteIndex.py 1535-1602.  Leaving the with block flushes the last blob also after an exception
      (SQLiteBlobFile.py 71-72). *)
  Definition store_gzip_index (blob_size : Z) (zran : bool) (d : decoder) : list stmt * outcome :=
    let t := if d_rapid d && d_formats d then GzToolIndex else GzipIndexes in
    let rows := map Blob (w_table (snd (export blob_size (d_exports d)))) in
    let written := [Drop t; Create t] ++ map (Insert t) rows in
    match d_fails d with
    | Some e =>
        if negb zran then (written, Raised AttributeError)
        else if handled e then (written ++ [Drop t], Raised RatarmountError) else (written, Raised e)
    | None =>
        (written ++
         (if Nat.eqb (length rows) 1 && table_eqb t GzipIndexes then [Drop GzipIndex; RenameGzip] else []) ++ [Commit], Built)
    end.

  (** The branch for bzip2 and Zstandard, SQLiteIndex.py 1419-1453. *)
  Definition synchronize_blocks (t : table) (d : decoder) (s : db) : list stmt * outcome :=
    if negb (d_methods d) then ([], Skipped)
    else
      let build :=
        ((if is_some (s t) then [Drop t] else []) ++ [Create t] ++ map (fun '(b, o) => Insert t (Offsets b o)) (d_blocks d) ++ [Commit], Built) in
      match s t with
      | Some rows => let offsets := map pair_of rows in if d_takes d offsets then ([], LoadedBlocks offsets) else build
      | None => build
      end.

  (** synchronize_compression_offsets, SQLiteIndex.py 1390-1472.  [memory]: the index is still in memory after trying to move it to a
      file (lines 1395-1409; Spill_Model.v).  A NotImplementedError is a RuntimeError. *)
  Definition synchronize (blob_size : Z) (zran memory : bool) (c : compression) (d : decoder) (s : db) : list stmt * outcome :=
    if memory then ([], Skipped)
    else
      match c with
      | Bzip2 => synchronize_blocks Bzip2Blocks d s
      | Zstandard => synchronize_blocks ZstdBlocks d s
      | Gzip | Zlib =>
          if d_methods d then
            match load_gzip_index s d with
            | Some data => ([], Loaded data)
            | None => store_gzip_index blob_size zran d
            end
          else ([], Raised RuntimeError)
      | Xz => ([], Skipped)
      | OtherFormat => ([], Raised RuntimeError)
      end.

  (** clear_compression_offsets, SQLiteIndex.py 1386-1388; called when an archive was appended to (tar.py 698-700). *)
  Definition clear : list stmt := map Drop [Bzip2Blocks; GzipIndex; GzipIndexes; GzToolIndex; ZstdBlocks].

  (** One use of an index file: a mount, or dropping the data.  [cut]: the process dies after that many statements.  As in Crash_Model.v,
      any prefix of the statements can be what is in the file then. *)
  Inductive event :=
  | Mount (zran memory : bool) (c : compression) (d : decoder) (cut : option nat)
  | Clear (cut : option nat).

  Definition statements (blob_size : Z) (s : db) (e : event) : list stmt * outcome * option nat :=
    match e with
    | Mount zran memory c d cut => (synchronize blob_size zran memory c d s, cut)
    | Clear cut => (clear, Skipped, cut)
    end.
  Definition use (blob_size : Z) (s : db) (e : event) : db * outcome :=
    let '(qs, o, cut) := statements blob_size s e in
    (exec_all s (match cut with Some k => firstn k qs | None => qs end), o).

  Fixpoint outcomes (blob_size : Z) (s : db) (es : list event) : list outcome :=
    match es with
    | [] => []
    | e :: rest => let '(s', o) := use blob_size s e in o :: outcomes blob_size s' rest
    end.

  Definition no_tables : db := fun _ => None.
End Model.
Arguments row : clear implicits.
Arguments db : clear implicits.
Arguments stmt : clear implicits.
Arguments decoder : clear implicits.
Arguments outcome : clear implicits.
Arguments event : clear implicits.
