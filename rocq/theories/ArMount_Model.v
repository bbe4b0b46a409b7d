(** Model of mounted AR archives: [ARMountSource], /repo/core/ratarmountcore/mountsource/formats/ar.py 220-275.  The parser is in
    Ar_Model.v, the index in Index_Model.v.  [decode] is bytes.decode with the encoding of the index, for names that can be decoded;
    [transform] is the option of that name.  Link names are decoded too, ar.py 235. *)
From Coq Require Import Ascii String.
From Verif Require Import PyBase PyDict PyStr Path_Model FileInfo Index_Model Tar_Model Ar_Model.
Local Open Scope Z_scope.

Section ArMount.
  Variable decode : str -> str.
  Variable transform : str -> str.

  (** [_convert_to_row], ar.py 226-257 *)
  Definition ar_row (f : ainfo) : row :=
    let '(path, name) := split_last (normpath (transform (decode (a_name f)))) in
    mkRow path name (a_offset f) (a_offset_data f) (a_size f) (a_mtime f) (row_mode f) 0 (decode (a_linkname f)) (a_uid f) (a_gid f) false false false 0.

  (** ar.py 220-224 *)
  Definition ar_index (data : str) : res (list row) := bind (parse_ar data) (fun files => Ok (build [Batch (map ar_row files)])).

  (** [open] and [_open_stencil], ar.py 259-275, followed by reading all of it (see Stencil_Model.v for other reads): what is behind the
      end of the archive is missing. *)
  Definition ar_open (data : str) (i : finfo tar_data) : res str :=
    if is_lnk_mode (fi_mode i) then Err RatarmountError
    else match fi_userdata i with td :: _ => Ok (zslice data (u_offset td) (fi_size i)) | [] => Err AssertionError end.
End ArMount.
