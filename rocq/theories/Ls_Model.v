(** Model of listing a folder of a TAR archive that is mounted read-only: FuseMount.readdir (/repo/ratarmount/FuseMount.py 738-770,
    [front_readdir] of Front_Model.v) over the FileVersionLayer (versioning.py 152-188, [v_list]) over the index (Index_Model.v).

    Simplifications: all queries for one listing return rows in the same order; an assertion error in a lookup counts as a missing file. *)
From Coq Require Import Ascii String.
From Verif Require Import PyBase PyDict PyStr FileInfo Union_Model Index_Model Version_Model Front_Spec Front_Model Served_Model.
Local Open Scope Z_scope.

Section Ls.
  Variables now uid gid : Z.
  Variable rows : list row.
  Variable mount_point_mode : Z.

  (** FuseMount._lookup as an option, FuseMount.py 656-665 *)
  Definition ls_lookup (sh : order) (path : str) : option (finfo tar_data) :=
    match served_lookup now uid gid rows sh path with Ok v => Some (served_info v) | Err _ => None end.

  (** FileVersionLayer.list_mode, versioning.py 186-188 *)
  Definition ls_modes (sh : order) (path : str) : Front_Spec.listing :=
    match v_list (tar_source now uid gid rows sh) (s_list_mode (tar_source now uid gid rows sh)) path with
    | LNone => NoListing
    | LNames names => NameList names
    | LDict d => ModeDict d
    end.

  (** FuseMount.readdir, FuseMount.py 738-770 *)
  Definition ls (sh : order) (path : str) : res (list (str * option Z)) :=
    front_readdir (ls_lookup sh) (ls_modes sh) (fun _ => $"/") None mount_point_mode path.
End Ls.
