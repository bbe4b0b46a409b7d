(** Model of the indexing with libarchive: /repo/core/ratarmountcore/mountsource/formats/libarchive.py, ArchiveEntry and
    LibarchiveMountSource._create_index and open.

    What the library reports of an entry is the record below.  Not modelled: the check for encrypted contents (libarchive.py 574-587), which
    only logs or raises, and ArchiveEntry.get_time, whose result is [e_mtime] (an integer). *)
From Coq Require Import Ascii String.
From Verif Require Import PyBase PyStr Path_Model FileInfo Strip_Model Index_Model Tar_Model Lib_Model.
Local Open Scope Z_scope.

(** [e_size]: laffi.entry_size if entry_size_is_set. *)
Record entry (A : Type) := mkEntry {
  e_path : str; e_size : option Z; e_data : list A; e_mode : Z; e_filetype : Z; e_symlink : str; e_hardlink : str; e_mtime : Z }.
Arguments mkEntry {A}. Arguments e_path {A}. Arguments e_size {A}. Arguments e_data {A}. Arguments e_mode {A}.
Arguments e_filetype {A}. Arguments e_symlink {A}. Arguments e_hardlink {A}. Arguments e_mtime {A}.

Section LibIndex.
  Context {A : Type}.
  Variable transform : str -> str.

  (** ArchiveEntry.is_directory, is_symbolic_link and linkname, libarchive.py 96-117. *)
  Definition is_directory (e : entry A) : bool := Z.land (e_filetype e) 61440 =? 16384.
  Definition is_symbolic_link (e : entry A) : bool := Z.land (e_filetype e) 61440 =? 40960.
  Definition entry_linkname (e : entry A) : str := if is_symbolic_link e then e_symlink e else e_hardlink e.

  (** ArchiveEntry.convert_to_row, libarchive.py 119-172. *)
  Definition convert_to_row (count : nat) (path : option str) (e : entry A) : row :=
    let size := match e_size e with Some n => n | None => len (e_data e) end in
    let mode := Z.land (e_mode e) 511 in
    let mode := match entry_linkname e with
                | _ :: _ => Z.lor mode S_IFLNK
                | [] => Z.lor mode (if is_directory e then S_IFDIR else S_IFREG)
                end in
    let path := match path with Some (c :: p) => c :: p | _ => e_path e end in
    let '(folder, name) := split_last (normpath (transform path)) in
    mkRow folder name (Z.of_nat count) 0 size (e_mtime e) mode 0 (entry_linkname e) 0 0 false false false 0.

  (** The name of a file that is only compressed, libarchive.py 560-569: [fname] is the base name of the archive, [suffixes] are the
      extensions without the dot. *)
  Fixpoint cut_suffix (suffixes : list str) (fname : str) : str :=
    match suffixes with
    | [] => fname
    | s :: suffixes =>
      let suffix := $"." ++ s in
      if ends_with (map lower suffix) (map lower fname) && Nat.ltb (length suffix) (length fname)
      then firstn (length fname - length suffix) fname
      else cut_suffix suffixes fname
    end.

  (** The rows, libarchive.py 550-573.  [raw]: the file is only compressed, and this is the name cut by [cut_suffix]. *)
  Fixpoint entry_rows (count : nat) (raw : option str) (entries : list (entry A)) : list row :=
    match entries with
    | [] => []
    | e :: entries => convert_to_row count (if Nat.eqb count 0 then raw else None) e :: entry_rows (S count) raw entries
    end.

  (** The insertions in batches of more than [limit] (1000) rows, libarchive.py 588-596. *)
  Fixpoint batches (limit : nat) (pending rows : list row) : list insertion :=
    match rows with
    | [] => match pending with [] => [] | _ => [Batch pending] end
    | r :: rows =>
      let pending := pending ++ [r] in
      if Nat.ltb limit (length pending) then Batch pending :: batches limit [] rows else batches limit pending rows
    end.
  Definition create_lib_index (limit : nat) (raw : option str) (entries : list (entry A)) : list insertion :=
    batches limit [] (entry_rows 0 raw entries).

  (** LibarchiveMountSource.open, libarchive.py 602-613, with the first item of the user data. *)
  Definition open_event (i : finfo tar_data) : option event :=
    match fi_userdata i with
    | td :: _ => Some (EOpen (Z.to_nat (u_offsetheader td)) (fi_size i))
    | [] => None
    end.
End LibIndex.
