(** Model of the FileInfo record of core/ratarmountcore/mountsource/MountSource.py:14-36. *)
From Coq Require Import Ascii String.
From Verif Require Import PyBase PyStr.
Local Open Scope Z_scope.

(** FileInfo, MountSource.py:15-28.  [U] is the type of the entries of [userdata], most recent last.
    Simplification: mtime is an integer. *)
Record finfo (U : Type) := mkInfo {
  fi_size : Z; fi_mtime : Z; fi_mode : Z; fi_linkname : str; fi_uid : Z; fi_gid : Z; fi_userdata : list U }.
Arguments mkInfo {U}.
Arguments fi_size {U}. Arguments fi_mtime {U}. Arguments fi_mode {U}. Arguments fi_linkname {U}.
Arguments fi_uid {U}. Arguments fi_gid {U}. Arguments fi_userdata {U}.

(** Constants of Python's [stat] module. *)
Definition S_IFMT : Z := 61440.   (* 0o170000 *)
Definition S_IFDIR : Z := 16384.  (* 0o040000 *)
Definition S_IFREG : Z := 32768.  (* 0o100000 *)
Definition S_IFLNK : Z := 40960.  (* 0o120000 *)
Definition S_IFBLK : Z := 24576.  (* 0o060000 *)
Definition is_dir_mode (m : Z) : bool := Z.land m S_IFMT =? S_IFDIR.
Definition is_lnk_mode (m : Z) : bool := Z.land m S_IFMT =? S_IFLNK.
Definition is_reg_mode (m : Z) : bool := Z.land m S_IFMT =? S_IFREG.

(** create_root_file_info, MountSource.py:142-153.  [now], [uid], [gid] come from the environment. *)
Definition root_info {U} (now uid gid : Z) (ud : list U) : finfo U :=
  mkInfo 0 now (Z.lor 511 S_IFDIR) [] uid gid ud.
