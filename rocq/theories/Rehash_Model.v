(** Model of the check sums of an archive over several mounts with a stored index:
    SQLiteIndexMountSource._finalize_index (/repo/core/ratarmountcore/mountsource/SQLiteIndexMountSource.py 211-240) and the way
    SQLiteIndexedTar.__init__ goes around it (/repo/core/ratarmountcore/mountsource/formats/tar.py 681-738).

    The archive does not change and the index can be written.  Left out: the metadata (Reuse_Model.v), archives that are appended to
    (Append_Model.v; they are not hashed either), indexes that were not complete (Crash_Model.v): an interruption comes while hashing. *)
From Coq Require Import Ascii String.
From Verif Require Import PyBase PyStr FileInfo Index_Model Xattr_Model Hash_Model.
Local Open Scope Z_scope.

(** A mount: the algorithms (self.hashes, sorted and distinct), what opening and hashing the files gives, the order of rows with equal
    numbers, and after how many written attributes it is interrupted, if it is. *)
Record mount := mkMount { m_hashes : list str; m_computed : row -> option (list (str * str)); m_shuffle : list row -> list row; m_cut : option nat }.

Section Mounts.
  (** The rows that indexing the archive gives, and the extended attributes in the archive. *)
  Variable files : list row.
  Variable own : list (Z * str * str).

  (** _compute_and_store_hashes, perhaps interrupted: the attributes written in total. *)
  Definition hashing (h : list (Z * str * str)) (m : mount) : list (Z * str * str) :=
    let written := concat (hash_calls (m_hashes m) (m_computed m) (m_shuffle m) files (setxattrs no_xattrs h)) in
    h ++ match m_cut m with None => written | Some n => firstn n written end.

  (** [tar]: SQLiteIndexedTar returns as soon as an index is loaded (tar.py 681-685); all others call _finalize_index. *)
  Definition mount_step (tar : bool) (stored : option (list (Z * str * str))) (m : mount) : option (list (Z * str * str)) :=
    match stored with
    | None => Some (hashing own m)
    | Some h => Some (if tar then h else hashing h m)
    end.
  Definition after (tar : bool) (ms : list mount) : option (list (Z * str * str)) := fold_left (mount_step tar) ms None.
End Mounts.
