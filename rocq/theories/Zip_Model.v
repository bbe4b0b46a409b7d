(** Model of the ZIP backend, /repo/core/ratarmountcore/mountsource/formats/zip.py, without the passwords (Pass_Model.v).

    An entry is what zipfile.ZipInfo holds; [z_data] is what ZipFile.read gives for it.  Times are integers (zip.py 48 converts the
    calendar date, see DosTime_Model.v); decoding the target of a link is the identity on bytes. *)
From Coq Require Import Ascii String.
From Verif Require Import PyBase PyDict PyStr Path_Model FileInfo Index_Model Tar_Model.
Local Open Scope Z_scope.

Record zinfo := mkZ { z_name : str; z_external : Z; z_header : Z; z_size : Z; z_mtime : Z; z_data : str }.

(** ZipInfo.is_dir (Lib/zipfile.py) *)
Definition zip_is_dir (i : zinfo) : bool := ends_with $"/" (z_name i).

(** ZipMountSource._convert_to_row, zip.py 47-102: 0o777 = 511, 0o770 = 504, 0o660 = 432. *)
Definition zip_row (transform : str -> str) (i : zinfo) : row :=
  let high := Z.shiftr (z_external i) 16 in
  let mode := Z.land high 511 in
  let mode := if mode =? 0 then (if zip_is_dir i then 504 else 432) else mode in
  let '(linkname, mode) :=
    if Z.land high S_IFMT =? S_IFLNK then (z_data i, Z.lor mode S_IFLNK)
    else ([], Z.lor mode (if zip_is_dir i then S_IFDIR else S_IFREG)) in
  let '(path, name) := split_last (normpath (transform (z_name i))) in
  mkRow path name (z_header i) 0 (z_size i) (z_mtime i) mode 0 linkname 0 0 false false false 0.

(** ZipMountSource.__init__, zip.py 36 and 43-45. *)
Definition zip_files (infolist : list zinfo) : list (Z * zinfo) := dict_of Z.eqb (map (fun i => (z_header i, i)) infolist).
Definition zip_index (transform : str -> str) (infolist : list zinfo) : list row := build [Batch (map (zip_row transform) infolist)].

(** ZipMountSource.open, zip.py 139-147: the ZipInfo that is opened.  get_index_userdata takes the first item of the user data that is
    a SQLiteIndexedTarUserData; there is one. *)
Definition zip_open (files : list (Z * zinfo)) (f : finfo tar_data) : res zinfo :=
  match fi_userdata f with
  | td :: _ => match dget Z.eqb files (u_offsetheader td) with Some i => Ok i | None => Err KeyError end
  | [] => Err AssertionError
  end.
