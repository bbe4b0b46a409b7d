(** Model of reading a member out of a TAR archive: lookup in the index, then SQLiteIndexedTar.open,
    /repo/core/ratarmountcore/mountsource/formats/tar.py 1022-1029, for members that are not sparse (Sparse_Model.v has the others). *)
From Verif Require Import PyBase PyStr FileInfo Index_Model Stencil_Model Sparse_Model.
Local Open Scope Z_scope.

(** The cut-outs that [open] hands to the StenciledFile: the offset of the user data and the size of the file info.  File 0 is the
    archive.  None: the member is sparse or there is no user data. *)
Definition open_member (i : finfo tar_data) : option (list (nat * Z * Z)) :=
  match fi_userdata i with
  | td :: _ => if u_issparse td then None else Some (open_plain (u_offset td) (fi_size i))
  | [] => None
  end.
