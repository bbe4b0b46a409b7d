(** Model of the read-only requests of /repo/ratarmount/FuseMount.py: stat, directory listing, links, extended attributes and
    file system statistics, for any mount source, with and without a write overlay.

    The mount source is a parameter: any functions for lookup, list_mode, get_mount_source, statfs and the extended
    attributes.  The metadata table of the overlay is modelled row by row with the paths as strings.
    Not modelled: logging; modification times are whole seconds (then [int(mtime * 1e9)] is exact up to the year 2100). *)
From Coq Require Import Ascii String.
From Verif Require Import PyBase PyDict PyStr Path_Model FileInfo Front_Spec.
Local Open Scope Z_scope.

(** Python's [max], [min] and utils.py 74-75 *)
Definition ceil_div (dividend divisor : Z) : Z := - ((- dividend) / divisor).

(** errno.ENODATA and errno.EOPNOTSUPP of Linux. *)
Definition ENODATA_exn : exn := OSErr 61.
Definition EOPNOTSUPP_exn : exn := OSErr 95.

(** A row of the table "files" of the overlay, WriteOverlay.py 55-68. *)
Record frow := mkRow {
  fr_path : str; fr_name : str;
  fr_mtime : option Z; fr_mode : option Z; fr_uid : option Z; fr_gid : option Z; fr_deleted : bool }.

(** What the overlay contributes: the rows and the result of [os.statvfs] on its folder. *)
Record front_overlay := mkFO { fo_rows : list frow; fo_statfs : list (str * Z) }.

(** The dictionary [getattr] returns. *)
Record fstat := mkStat {
  st_size : Z; st_mode : Z; st_uid : Z; st_gid : Z; st_mtime : Z; st_nlink : Z; st_blksize : Z; st_blocks : Z }.

(** hiddenDatabaseName, WriteOverlay.py 69, with the suffixes of line 201 *)
Definition database_names : list str :=
  map (fun s => $".ratarmount.overlay.sqlite" ++ s) [$""; $"-journal"; $"-shm"; $"-wal"].

(** [_split_path], WriteOverlay.py 146-149.  The string starts with a slash, so the [None] case cannot happen. *)
Definition split_path (path : str) : str * str :=
  match rsplit1 slash (slash :: lstrip slash (posix_normpath path)) with
  | Some r => r
  | None => ([], [])
  end.

(** The condition [path == ? AND name == ?] *)
Definition row_at (folder name : str) (r : frow) : bool := str_eqb (fr_path r) folder && str_eqb (fr_name r) name.

(** [is_deleted], WriteOverlay.py 204-209 *)
Definition is_deleted (o : front_overlay) (path : str) : bool :=
  let '(folder, name) := split_path path in
  existsb (fun r => row_at folder name r && fr_deleted r) (fo_rows o).

(** [list_deleted], WriteOverlay.py 194-202 *)
Definition list_deleted (o : front_overlay) (path : str) : list str :=
  map fr_name (filter (fun r => str_eqb (fr_path r) (rstrip slash path) && fr_deleted r) (fo_rows o)) ++ database_names.

Definition or_else (a : option Z) (b : Z) : Z := match a with Some x => x | None => b end.

Section Front.
  Context {U : Type}.
  Variable lookup : str -> option (finfo U).
  Variable list_mode : str -> listing.
  (** The first component of [get_mount_source]: where the source that owns the file is mounted. *)
  Variable mount_point_of : finfo U -> str.
  Variable source_statfs : list (str * Z).
  Variable source_list_xattr : finfo U -> list str.
  Variable source_get_xattr : finfo U -> str -> option str.
  Variable overlay : option front_overlay.
  (** [self.mountPointInfo['st_mode']], FuseMount.py 281-289 *)
  Variable mount_point_mode : Z.

  (** [update_file_info], WriteOverlay.py 271-289 *)
  Definition update_file_info (o : front_overlay) (path : str) (i : finfo U) : finfo U :=
    let '(folder, name) := split_path path in
    match find (row_at folder name) (fo_rows o) with
    | None => i
    | Some r => mkInfo (fi_size i) (or_else (fr_mtime r) (fi_mtime i)) (or_else (fr_mode r) (fi_mode i)) (fi_linkname i)
                       (or_else (fr_uid r) (fi_uid i)) (or_else (fr_gid r) (fi_gid i)) (fi_userdata i)
    end.

  (** [_lookup], FuseMount.py 656-674 *)
  Definition front_lookup (path : str) : res (finfo U) :=
    if match overlay with Some o => is_deleted o path | None => false end then Err ENOENT
    else match lookup path with
         | None => Err ENOENT
         | Some i => match overlay with
                     | None => Ok i
                     | Some o => Ok (update_file_info o (skipn (length (mount_point_of i)) path) i)
                     end
         end.

  Definition MINIMUM_BLOCK_SIZE : Z := 262144.

  (** [getattr], FuseMount.py 712-736 *)
  Definition front_getattr (path : str) : res fstat :=
    match front_lookup path with
    | Err e => Err e
    | Ok i => Ok (mkStat (fi_size i) (fi_mode i) (fi_uid i) (fi_gid i) (fi_mtime i * 1000000000) 1 MINIMUM_BLOCK_SIZE
                         (ceil_div (fi_size i) 512))
    end.

  (** [path.rsplit('/', 1)[0]] *)
  Definition rsplit_head (path : str) : str := match rsplit1 slash path with Some (h, _) => h | None => path end.

  (** [readdir], FuseMount.py 738-770: names, with the mode if the source knows it. *)
  Definition front_readdir (path : str) : res (list (str * option Z)) :=
    let deleted := match overlay with Some o => list_deleted o path | None => [] end in
    let kept n := negb (existsb (str_eqb n) deleted) in
    match list_mode path with
    | ModeDict files =>
        match front_getattr path with
        | Err e => Err e
        | Ok here =>
            match (if str_eqb path $"/" then Ok mount_point_mode
                   else match front_getattr (rsplit_head path) with Ok s => Ok (st_mode s) | Err e => Err e end) with
            | Err e => Err e
            | Ok up => Ok (($".", Some (st_mode here)) :: ($"..", Some up)
                           :: map (fun f => (fst f, Some (snd f))) (filter (fun f => kept (fst f)) files))
            end
        end
    | NameList files => Ok (($".", None) :: ($"..", None) :: map (fun n => (n, None)) (filter kept files))
    | NoListing => Ok [($".", None); ($"..", None)]
    end.

  (** [readlink], FuseMount.py 772-774 *)
  Definition front_readlink (path : str) : res str :=
    match front_lookup path with Ok i => Ok (fi_linkname i) | Err e => Err e end.

  (** [listxattr], FuseMount.py 914-919 *)
  Definition front_listxattr (path : str) : res (list str) :=
    match front_lookup path with Ok i => Ok (source_list_xattr i) | Err e => Err e end.

  (** [getxattr], FuseMount.py 921-935 *)
  Definition front_getxattr (path name : str) (position : Z) : res str :=
    if negb (position =? 0) then Err EOPNOTSUPP_exn
    else match front_lookup path with
         | Err e => Err e
         | Ok i => match source_get_xattr i name with Some v => Ok v | None => Err ENODATA_exn end
         end.

  (** [result[key] = max(result.get(key, 0), MINIMUM_BLOCK_SIZE)] *)
  Definition at_least (d : list (str * Z)) (key : str) : list (str * Z) :=
    dset str_eqb d key (Z.max (match dget str_eqb d key with Some v => v | None => 0 end) MINIMUM_BLOCK_SIZE).

  (** [statfs], FuseMount.py 889-912.  The dictionary computed from the overlay is overwritten by line 905. *)
  Definition front_statfs : list (str * Z) :=
    let keys := [$"f_bsize"; $"f_frsize"] in
    let unused := match overlay with
                  | Some o => dupdate str_eqb (fo_statfs o)
                                (filter (fun kv => existsb (str_eqb (fst kv)) keys) source_statfs)
                  | None => []
                  end in
    let result := source_statfs in
    fold_left at_least keys result.
End Front.

(** [_set_metadata] on a row that exists or is created by [_init_file_metadata], WriteOverlay.py 211-256, for the mode:
    the part of [chmod] that concerns the table.  Any row of the path is replaced in place, else one is added. *)
Definition chmod_row {U} (i : finfo U) (o : front_overlay) (path : str) (mode : Z) : front_overlay :=
  let '(folder, name) := split_path path in
  if existsb (row_at folder name) (fo_rows o)
  then mkFO (map (fun r => if row_at folder name r
                           then mkRow (fr_path r) (fr_name r) (fr_mtime r) (Some mode) (fr_uid r) (fr_gid r) (fr_deleted r)
                           else r) (fo_rows o)) (fo_statfs o)
  else mkFO (fo_rows o ++ [mkRow folder name (Some (fi_mtime i)) (Some mode) (Some (fi_uid i)) (Some (fi_gid i)) false])
            (fo_statfs o).

(** [merge_statfs], MountSource.py 156-174 *)
Definition merge_one (result : list (str * Z)) (kv : str * Z) : list (str * Z) :=
  let '(key, value) := kv in
  match dget str_eqb result key with
  | None => dset str_eqb result key value
  | Some old =>
      if str_eqb key $"f_bsize" || str_eqb key $"f_frsize" then dset str_eqb result key (Z.max old value)
      else if str_eqb key $"f_namemax" then dset str_eqb result key (Z.min old value)
      else result
  end.
Definition merge_statfs (values : list (list (str * Z))) : list (str * Z) :=
  fold_left (fun result s => fold_left merge_one s result) values [].
