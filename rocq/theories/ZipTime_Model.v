(** Model of reading the entries of a ZIP archive with their times: core/ratarmountcore/mountsource/formats/zip.py 43-48. *)
From Coq Require Import Ascii String.
From Verif Require Import PyBase PyStr Index_Model Tar_Model Zip_Model DosTime_Model.
Local Open Scope Z_scope.

(** An entry of the central directory as zipfile.ZipInfo holds it (used in zip.py 47-102), with its date and time as they are stored; [w_data] is what
    ZipFile.read gives for it. *)
Record raw := mkRaw { w_name : str; w_external : Z; w_header : Z; w_size : Z; w_date : Z; w_time : Z; w_data : str }.
(** The first line of [_convert_to_row], zip.py 48; the rest is Zip_Model.zip_row. *)
Definition with_mtime (w : raw) : res zinfo :=
  match zip_mtime (w_date w) (w_time w) with
  | Ok t => Ok (mkZ (w_name w) (w_external w) (w_header w) (w_size w) t (w_data w))
  | Err e => Err e
  end.
(** The list comprehension in [ZipMountSource.__init__], zip.py 43-45 *)
Fixpoint with_mtimes (l : list raw) : res (list zinfo) :=
  match l with
  | [] => Ok []
  | w :: l => match with_mtime w with
              | Ok i => match with_mtimes l with Ok is => Ok (i :: is) | Err e => Err e end
              | Err e => Err e
              end
  end.
(** The index that [ZipMountSource.__init__] makes, zip.py 42-45 *)
Definition zip_mount (transform : str -> str) (l : list raw) : res (list row) :=
  match with_mtimes l with Ok is => Ok (zip_index transform is) | Err e => Err e end.
