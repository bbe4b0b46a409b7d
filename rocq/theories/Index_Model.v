(** Model of core/ratarmountcore/SQLiteIndex.py: the tables, insertion, finalization, lookup, list and versions. *)
From Coq Require Import Ascii String.
From Verif Require Import PyBase PyDict PyStr Path_Model FileInfo.
Local Open Scope Z_scope.

(** One row of the table "files", create-index-tables.sql:3-28.  Simplification: mtime is an integer. *)
Record row := mkRow {
  r_path : str; r_name : str; r_offsetheader : Z; r_offset : Z; r_size : Z; r_mtime : Z; r_mode : Z; r_type : Z;
  r_linkname : str; r_uid : Z; r_gid : Z; r_istar : bool; r_issparse : bool; r_isgenerated : bool; r_recursiondepth : Z }.

(** SQLiteIndexedTarUserData, SQLiteIndex.py (dataclass with the fields below). *)
Record tar_data := mkTD {
  u_offset : Z; u_offsetheader : Z; u_istar : bool; u_issparse : bool; u_isgenerated : bool; u_recursiondepth : Z }.

(** SQLiteIndex._row_to_file_info, SQLiteIndex.py:780-799 (current index versions have all columns). *)
Definition row_to_file_info (r : row) : finfo tar_data :=
  mkInfo (r_size r) (r_mtime r) (r_mode r) (r_linkname r) (r_uid r) (r_gid r)
    [mkTD (r_offset r) (r_offsetheader r) (r_istar r) (r_issparse r) (r_isgenerated r) (r_recursiondepth r)].

(** ** SQL *)

(** Primary key (path, name, offsetheader), create-index-tables.sql:27. *)
Definition same_key (a b : row) : bool :=
  str_eqb (r_path a) (r_path b) && str_eqb (r_name a) (r_name b) && (r_offsetheader a =? r_offsetheader b).

(** [INSERT OR REPLACE INTO "files"] *)
Definition insert_or_replace (t : list row) (r : row) : list row := filter (fun x => negb (same_key r x)) t ++ [r].
(** [INSERT OR IGNORE INTO "files"] *)
Definition insert_or_ignore (t : list row) (r : row) : list row := if existsb (same_key r) t then t else t ++ [r].

(** [ORDER BY key]: a stable insertion sort; the order among equal keys is left open by [shuffle] below. *)
Fixpoint insert_sorted {X} (key : X -> Z) (x : X) (l : list X) : list X :=
  match l with [] => [x] | y :: r => if key x <? key y then x :: l else y :: insert_sorted key x r end.
Definition sort_by {X} (key : X -> Z) (l : list X) : list X := fold_left (fun acc x => insert_sorted key x acc) l [].

Section Queries.
  (** Environment of create_root_file_info. *)
  Variables now uid gid : Z.
  (** SQL leaves the order of rows that ORDER BY does not distinguish open: the matching rows reach the sort in any
      order.  Theorems hold for every permutation [shuffle]. *)
  Variable shuffle : list row -> list row.

  Definition root : finfo tar_data := root_info now uid gid [mkTD 0 0 false false true 0].

  (** SQLiteIndex.lookup, SQLiteIndex.py:939-970. *)
  Definition lookup (files : list row) (path : str) (fileVersion : Z) : option (finfo tar_data) :=
    let path := query_normpath path in
    if str_eqb path $"/" then Some root
    else match rsplit1 slash path with
    | None => None (* not reachable: the path starts with a slash *)
    | Some (path, name) =>
      let matching := shuffle (filter (fun r => str_eqb (r_path r) path && str_eqb (r_name r) name) files) in
      let sorted := if fileVersion <=? 0 then sort_by (fun r => - r_offsetheader r) matching
                    else sort_by r_offsetheader matching in
      let offset := if 0 <? fileVersion then fileVersion - 1 else - fileVersion in
      match zskip offset sorted with [] => None | r :: _ => Some (row_to_file_info r) end
    end.

  (** SQLiteIndex.versions, SQLiteIndex.py:921-937.  The keys "1", "2", ... of the result are numbers here. *)
  Definition index_versions (files : list row) (path : str) : list (nat * finfo tar_data) :=
    let path := query_normpath path in
    if str_eqb path $"/" then [(1%nat, root)]
    else match rsplit1 slash path with
    | None => []
    | Some (path, name) =>
      let rows := sort_by r_offsetheader
                    (shuffle (filter (fun r => str_eqb (r_path r) path && str_eqb (r_name r) name) files)) in
      combine (seq 1 (length rows)) (map row_to_file_info rows)
    end.

  (** SQLiteIndexMountSource.versions, mountsource/SQLiteIndexMountSource.py:289-292. *)
  Definition versions (files : list row) (path : str) : nat := length (index_versions files path).

  (** SQLiteIndex.list, SQLiteIndex.py:819-896. *)
  Definition index_list (files : list row) (path : str) : option (list (str * finfo tar_data)) :=
    let rows := sort_by r_offsetheader
                  (shuffle (filter (fun r => str_eqb (r_path r) (rstrip slash (query_normpath path))) files)) in
    let directory := dict_of str_eqb (map (fun r => (r_name r, row_to_file_info r)) rows) in
    let gotResults := match directory with [] => false | _ => true end in
    let directory := ddel str_eqb directory [] in
    if gotResults then Some directory else None.

  (** SQLiteIndex.list_mode, SQLiteIndex.py:898-919. *)
  Definition list_mode (files : list row) (path : str) : option (list (str * Z)) :=
    let rows := sort_by r_offsetheader
                  (shuffle (filter (fun r => str_eqb (r_path r) (rstrip slash (query_normpath path))) files)) in
    let directory := dict_of str_eqb (map (fun r => (r_name r, r_mode r)) rows) in
    let gotResults := match directory with [] => false | _ => true end in
    let directory := ddel str_eqb directory [] in
    if gotResults then Some directory else None.
End Queries.

(** ** Insertion and finalization *)

(** Row of the table "parentfolders" (path, name, offsetheader, offset), create-index-tables.sql:76-82. *)
Definition prow : Type := (str * str * Z * Z)%type.
Definition pkey (p : prow) : str * str := let '(a, b, _, _) := p in (a, b).
Definition pair_eqb (a b : str * str) : bool := str_eqb (fst a) (fst b) && str_eqb (snd a) (snd b).

(** State of an index under construction: the tables and [self.parentFolderCache].  Simplifications: the connection is
    open and stays the same one (moving the database from memory to disk, SQLiteIndex.py:1066-1079, copies the tables);
    all strings are encodable. *)
Record index := mkIndex {
  i_files : list row; i_filestmp : list row; i_parents : list prow; i_cache : list (str * str) }.
Definition empty_index : index := mkIndex [] [] [] [].

(** [INSERT OR IGNORE INTO "parentfolders"]: primary key (path, name). *)
Definition insert_parent (t : list prow) (p : prow) : list prow :=
  if existsb (fun x => pair_eqb (pkey x) (pkey p)) t then t else t ++ [p].

(** The (path, name) pairs of SQLiteIndex._try_add_parent_folders, SQLiteIndex.py:1018-1033. *)
Definition parent_pairs (path : str) : list (str * str) :=
  let parts := split slash path in
  map (fun i => (join $"/" (firstn i parts), nth i parts [])) (seq 1 (length parts - 1)).

(** SQLiteIndex._try_add_parent_folders, SQLiteIndex.py:1018-1058. *)
Definition try_add_parent_folders (st : index) (path : str) (offsetheader offset : Z) : index :=
  let paths := filter (fun p => negb (existsb (pair_eqb p) (i_cache st))) (parent_pairs path) in
  match paths with
  | [] => st
  | _ =>
    let cache := i_cache st ++ paths in
    let cache := if Nat.ltb 16 (length cache) then skipn (length cache - 8) cache else cache in
    mkIndex (i_files st) (i_filestmp st)
      (fold_left insert_parent (map (fun '(a, b) => (a, b, offsetheader, offset)) paths) (i_parents st)) cache
  end.

(** SQLiteIndex.set_file_infos, SQLiteIndex.py:1060-1090. *)
Definition set_file_infos (st : index) (rows : list row) : index :=
  let st1 := mkIndex (fold_left insert_or_replace rows (i_files st)) (i_filestmp st) (i_parents st) (i_cache st) in
  fold_left (fun s r => try_add_parent_folders s (r_path r) (r_offsetheader r) (r_offset r)) rows st1.

(** SQLiteIndex.set_file_info, SQLiteIndex.py:1100-1131. *)
Definition set_file_info (st : index) (r : row) : index :=
  try_add_parent_folders
    (mkIndex (insert_or_replace (i_files st) r) (i_filestmp st) (i_parents st) (i_cache st))
    (r_path r) (r_offsetheader r) (r_offset r).

(** The row generated for a parent folder, SQLiteIndex.py:706-712: mode 0o555 | S_IFDIR = 16749, type DIRTYPE = 5. *)
Definition folder_row (p : prow) : row :=
  let '(path, name, offsetheader, offset) := p in
  mkRow path name offsetheader offset 0 0 (Z.lor 365 S_IFDIR) 5 [] 0 0 false false false 0.

(** [mode & (1 << 14) != 0] *)
Definition has_dir_bit (r : row) : bool := negb (Z.land (r_mode r) 16384 =? 0).

(** SQLiteIndex._finalize_files_table, SQLiteIndex.py:696-727.  Simplification: the ORDER BY of the first INSERT is
    dropped because no statement of the code ever inserts into "filestmp" (create-index-tables.sql:63-73); the order of
    the second INSERT does not matter because (path, name) is unique in "parentfolders". *)
Definition finalize (st : index) : list row :=
  let files1 := fold_left insert_or_replace (i_filestmp st) (i_files st) in
  let new := filter (fun p => negb (existsb (fun r => has_dir_bit r && pair_eqb (pkey p) (r_path r, r_name r)) files1))
                    (i_parents st) in
  fold_left insert_or_ignore (map folder_row new) files1.

(** What a backend does to build an index: any sequence of single and batch insertions. *)
Inductive insertion := One (r : row) | Batch (rs : list row).
Definition insert (st : index) (i : insertion) : index :=
  match i with One r => set_file_info st r | Batch rs => set_file_infos st rs end.
Definition build (is : list insertion) : list row := finalize (fold_left insert is empty_index).
Definition inserted_rows (is : list insertion) : list row :=
  flat_map (fun i => match i with One r => [r] | Batch rs => rs end) is.
