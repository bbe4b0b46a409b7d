(** Model of the 7z backend, /repo/core/ratarmountcore/mountsource/formats/py7zr.py, without the passwords (Pass_Model.v). *)
From Coq Require Import Ascii String.
From Verif Require Import PyBase PyDict PyStr Path_Model FileInfo Index_Model Tar_Model.
Local Open Scope Z_scope.

Section Cached.
  Context {A : Type}.
  (** CachedFile: the buffer (always written at its end) and the position in the extracted stream, py7zr.py 20-28 *)
  Record cached := mkCached { c_file : list A; c_position : Z }.
  (** CachedFile.write, py7zr.py 29-36 *)
  Definition cached_write (offset maxSize : Z) (st : cached) (s : list A) : cached :=
    let toSkip := offset - c_position st in
    let position := c_position st + len s in
    let tell := len (c_file st) in
    if (toSkip <? len s) && (tell <? maxSize)
    then mkCached (c_file st ++ py_slice s toSkip (toSkip + (maxSize - tell))) position
    else mkCached (c_file st) position.
  Definition cached_result (offset maxSize : Z) (chunks : list (list A)) : list A :=
    c_file (fold_left (cached_write offset maxSize) chunks (mkCached [] 0)).

  (** open_in_memory with the default arguments, py7zr.py 54-73.  [extract target] is what SevenZipFile.extract does with the factory:
      for every member it extracts, in the order of the archive, the name it creates a file for and the chunks that it writes.
      [maxSize] is sys.maxsize. *)
  Definition open_in_memory (maxSize : Z) (extract : str -> list (str * list (list A))) (target : str) : res (list A) :=
    let products := dict_of str_eqb (map (fun '(name, chunks) => (name, cached_result 0 maxSize chunks)) (extract target)) in
    match dget str_eqb products target with Some f => Ok f | None => Err KeyError end.
End Cached.

(** py7zr.FileInfo; times are integers *)
Record sinfo := mkS { v_name : str; v_isdir : bool; v_size : Z; v_ctime : Z }.

(** Py7zrMountSource._convert_to_row, py7zr.py 115-141 *)
Definition seven_row (transform : str -> str) (i : sinfo) : row :=
  let mode := Z.lor 511 (if v_isdir i then S_IFDIR else S_IFREG) in
  let '(path, name) := split_last (normpath (transform (v_name i))) in
  mkRow path name 0 0 (v_size i) (v_ctime i) mode 0 (v_name i) 0 0 false false false 0.
(** Py7zrMountSource.__init__, py7zr.py 111-113 *)
Definition seven_index (transform : str -> str) (infos : list sinfo) : list row := build [Batch (map (seven_row transform) infos)].
(** Py7zrMountSource.open, py7zr.py 182-183 *)
Definition seven_open {A} (maxSize : Z) (extract : str -> list (str * list (list A))) (f : finfo tar_data) : res (list A) :=
  open_in_memory maxSize extract (fi_linkname f).
