(** Model of creating an index file and of loading a leftover one: core/ratarmountcore/SQLiteIndex.py and
    create-index-tables.sql. *)
From Coq Require Import Ascii String.
From Verif Require Import PyBase PyDict PyStr Path_Model FileInfo Index_Model.
Local Open Scope Z_scope.

(** Tables and views of create-index-tables.sql. *)
Inductive table := TFiles | TXattrKeys | TXattrsData | TXattrs | TFilesTmp | TParentFolders | TMetadata | TVersions.
Definition table_eqb (a b : table) : bool :=
  match a, b with
  | TFiles, TFiles | TXattrKeys, TXattrKeys | TXattrsData, TXattrsData | TXattrs, TXattrs | TFilesTmp, TFilesTmp
  | TParentFolders, TParentFolders | TMetadata, TMetadata | TVersions, TVersions => true
  | _, _ => false
  end.

(** An SQLite file: its tables and views and the rows of the three tables that matter here.  The contents of the other
    tables are left out. *)
Record db := mkDb { d_tables : list table; d_files : list row; d_filestmp : list row; d_parents : list prow }.

(** [None]: there is no file. *)
Definition disk : Type := option db.

(** Statements, each of which is one durable step.  Simplifications: with PRAGMA JOURNAL_MODE = OFF (SQLiteIndex.py:621-626)
    an interrupted statement may damage the file; this is left out. *)
Inductive stmt :=
| SCreate (t : table)          (* CREATE TABLE / VIEW IF NOT EXISTS; creates the file *)
| STrigger                     (* CREATE TRIGGER *)
| SRemoveFile                  (* unchecked_remove(path) *)
| SInsertFile (r : row)        (* INSERT OR REPLACE INTO "files" *)
| SInsertParent (p : prow)     (* INSERT OR IGNORE INTO "parentfolders" *)
| SInsertFolder (r : row)      (* one row of the INSERT OR IGNORE of _finalize_files_table *)
| SMoveTmp                     (* INSERT OR REPLACE INTO "files" SELECT * FROM "filestmp" *)
| SDrop (t : table)            (* DROP TABLE *)
| SOther.                      (* VACUUM, PRAGMA optimize, inserts into xattrs, "metadata" and "versions" *)

Definition on (d : disk) (f : db -> db) : disk :=
  match d with None => Some (f (mkDb [] [] [] [])) | Some x => Some (f x) end.

Definition exec (d : disk) (s : stmt) : disk :=
  match s with
  | SCreate t => on d (fun x => mkDb (if existsb (table_eqb t) (d_tables x) then d_tables x else d_tables x ++ [t])
                                   (d_files x) (d_filestmp x) (d_parents x))
  | STrigger => d
  | SRemoveFile => None
  | SInsertFile r => on d (fun x => mkDb (d_tables x) (insert_or_replace (d_files x) r) (d_filestmp x) (d_parents x))
  | SInsertParent p => on d (fun x => mkDb (d_tables x) (d_files x) (d_filestmp x) (insert_parent (d_parents x) p))
  | SInsertFolder r => on d (fun x => mkDb (d_tables x) (insert_or_ignore (d_files x) r) (d_filestmp x) (d_parents x))
  | SMoveTmp => on d (fun x => mkDb (d_tables x) (fold_left insert_or_replace (d_filestmp x) (d_files x)) (d_filestmp x) (d_parents x))
  | SDrop t => on d (fun x => mkDb (filter (fun u => negb (table_eqb t u)) (d_tables x)) (d_files x) (d_filestmp x) (d_parents x))
  | SOther => d
  end.
Definition exec_all (d : disk) (ss : list stmt) : disk := fold_left exec ss d.

(** SQLiteIndex._path_can_be_used_for_sqlite, SQLiteIndex.py:596-613: a probe database with a table "files", which is
    then removed. *)
Definition probe : list stmt := [SCreate TFiles; SRemoveFile].

(** create-index-tables.sql, executed by SQLiteIndex._create_sql_db, SQLiteIndex.py:642-660. *)
Definition create_tables : list stmt :=
  [SCreate TFiles; SCreate TXattrKeys; SCreate TXattrsData; SCreate TXattrs; STrigger; SCreate TFilesTmp;
   SCreate TParentFolders; SCreate TMetadata; SCreate TVersions].

(** The statements of SQLiteIndex._try_add_parent_folders, SQLiteIndex.py:1018-1058. *)
Definition parent_stmts (st : index) (path : str) (offsetheader offset : Z) : list stmt :=
  map (fun '(a, b) => SInsertParent (a, b, offsetheader, offset))
    (filter (fun p => negb (existsb (pair_eqb p) (i_cache st))) (parent_pairs path)).

(** The statements of SQLiteIndex.set_file_info(s), SQLiteIndex.py:1060-1131. *)
Fixpoint batch_stmts (st : index) (rs : list row) : list stmt :=
  match rs with
  | [] => []
  | r :: rest => parent_stmts st (r_path r) (r_offsetheader r) (r_offset r)
                 ++ batch_stmts (try_add_parent_folders st (r_path r) (r_offsetheader r) (r_offset r)) rest
  end.
Definition insert_stmts (st : index) (i : insertion) : list stmt :=
  match i with
  | One r => SInsertFile r :: parent_stmts st (r_path r) (r_offsetheader r) (r_offset r)
  | Batch rs => map SInsertFile rs
                ++ batch_stmts (mkIndex (fold_left insert_or_replace rs (i_files st)) (i_filestmp st) (i_parents st) (i_cache st)) rs
  end.
Fixpoint inserts_stmts (st : index) (is : list insertion) : list stmt :=
  match is with [] => [] | i :: rest => insert_stmts st i ++ SOther :: inserts_stmts (insert st i) rest end.

(** SQLiteIndex._finalize_files_table, SQLiteIndex.py:696-727, on the tables of [st]. *)
Definition finalize_stmts (st : index) : list stmt :=
  let files1 := fold_left insert_or_replace (i_filestmp st) (i_files st) in
  let new := filter (fun p => negb (existsb (fun r => has_dir_bit r && pair_eqb (pkey p) (r_path r, r_name r)) files1))
                    (i_parents st) in
  [SMoveTmp; SDrop TFilesTmp] ++ map (fun p => SInsertFolder (folder_row p)) new ++ [SDrop TParentFolders; SOther; SOther].

(** SQLiteIndex.finalize_index with [writeIndex], SQLiteIndex.py:744-775: open_writable (372-395), then
    create_index_timed (732-742), which executes create-index-tables.sql again, inserts and finalizes; then the
    metadata (486-493). *)
Definition creation (history : list insertion) : list stmt :=
  probe ++ create_tables ++ create_tables
  ++ inserts_stmts empty_index history
  ++ finalize_stmts (fold_left insert history empty_index)
  ++ [SOther; SOther; SOther; SOther].

(** SQLiteIndex._load_index, SQLiteIndex.py:1238-1316 together with _try_load_index, 1338-1384: is the file used?
    [check] is the outcome of the metadata checks, which may reject the file if it has the table "metadata". *)
Definition accepted (check : bool) (d : disk) : bool :=
  match d with
  | None => false
  | Some x =>
    if negb (existsb (table_eqb TFiles) (d_tables x)) then false
    else if existsb (table_eqb TFilesTmp) (d_tables x) || existsb (table_eqb TParentFolders) (d_tables x) then false
    else if existsb (table_eqb TMetadata) (d_tables x) then check else true
  end.
