(** Model of SingleFileMountSource, a mount source with just one file: /repo/core/ratarmountcore/mountsource/compositing/singlefile.py.

    It shows split archives that are no archives once joined, the files /command and /output of the control interface and joined files
    inside of recursively mounted folders.  Left out: statfs, join_threads and closing the file; locks (Conc_Model.v); the buffer of the
    buffered files that are returned (it belongs to Python's io.BufferedReader). *)
From Coq Require Import Ascii String.
From Verif Require Import PyBase PyStr FileInfo Path_Model Stencil_Model.
Local Open Scope Z_scope.

(** An open file: its content, and the answers of seekable, writable and readable. *)
Record opened (A : Type) := mkOpened { o_content : list A; o_seekable : bool; o_writable : bool; o_readable : bool }.
Arguments mkOpened {A}. Arguments o_content {A}. Arguments o_seekable {A}. Arguments o_writable {A}. Arguments o_readable {A}.

(** _get_mode, singlefile.py 17-18 *)
Definition get_mode {A} (f : opened A) : Z := Z.lor 73 (Z.lor (if o_writable f then 146 else 0) (if o_readable f then 292 else 0)).

(** The members path, mtime and _file_info; [s_shared] is the file object, or None if a function that opens the file was given. *)
Record single (A : Type) := mkSingle { s_path : str; s_mtime : Z; s_info : option (finfo unit); s_shared : option (opened A) }.
Arguments mkSingle {A}. Arguments s_path {A}. Arguments s_mtime {A}. Arguments s_info {A}. Arguments s_shared {A}.

Section Single.
  Context {A : Type}.
  (** get_userid() and get_groupid() *)
  Variables uid gid : Z.

  (** _create_file_info, singlefile.py 99-133.  [current] is what self._open_file(-1) returns at the time of the call. *)
  Definition create_file_info (s : single A) (current : opened A) (isdir : bool) (size mode : option Z) : finfo unit :=
    let size := match size, s_info s with None, Some i => Some (fi_size i) | _, _ => size end in
    let mode := match mode, s_info s with None, Some i => Some (Z.land (fi_mode i) 511) | _, _ => mode end in
    let size := match size with Some n => n | None => if o_seekable current then len (o_content current) else 0 end in
    let mode := match mode with Some m => m | None => get_mode current end in
    mkInfo size (s_mtime s) (Z.lor mode (if isdir then S_IFDIR else S_IFREG)) []
      (match s_info s with Some i => fi_uid i | None => uid end) (match s_info s with Some i => fi_gid i | None => gid end) [].

  (** __init__, singlefile.py 32-98: with a file object, or with a function that opens the file. *)
  Definition init (path : str) (now : Z) (file : option (opened A)) : res (single A) :=
    let name := lstrip slash (posix_normpath (slash :: path)) in
    if (match name with [] => true | _ => false end) || existsb (char_eqb slash) name then Err ValueError
    else match file with
         | None => Ok (mkSingle name now None None)
         | Some f =>
             let s := mkSingle name now None (Some f) in
             Ok (mkSingle name now (Some (create_file_info s f false (Some (len (o_content f))) (Some (get_mode f)))) (Some f))
         end.

  (** list, singlefile.py 135-137 *)
  Definition is_root (path : str) : bool := match path with [] => true | _ => str_eqb path $"/" end.
  Definition list_ (s : single A) (path : str) : option (list str) := if is_root path then Some [s_path s] else None.

  (** lookup, singlefile.py 139-145 *)
  Definition lookup (s : single A) (current : opened A) (path : str) : option (finfo unit) :=
    if is_root path then Some (create_file_info s current true (Some 0) None)
    else if str_eqb (strip slash path) (s_path s) then Some (create_file_info s current false None None)
    else None.

  (** FileInfo.__eq__ of the dataclass *)
  Definition same_info (a b : finfo unit) : bool :=
    (fi_size a =? fi_size b) && (fi_mtime a =? fi_mtime b) && (fi_mode a =? fi_mode b) && str_eqb (fi_linkname a) (fi_linkname b) &&
    (fi_uid a =? fi_uid b) && (fi_gid a =? fi_gid b) && Nat.eqb (length (fi_userdata a)) (length (fi_userdata b)).

  (** What open returns: a view on the shared file with one stencil, with a buffer of the given size or none, or what the function given
      for opening returns. *)
  Inductive handle := View (stencils : list (nat * Z * Z)) (buffer : option Z) | Fresh (f : opened A).

  (** open, singlefile.py 147-151, and open_shared_file, 58-81; io.DEFAULT_BUFFER_SIZE is 8192. *)
  Definition open_ (s : single A) (current : opened A) (info : finfo unit) (buffering : Z) : res handle :=
    if negb (same_info info (create_file_info s current false (Some (fi_size info)) (Some (Z.land (fi_mode info) 511)))) then Err ValueError
    else match s_shared s with
         | None => Ok (Fresh current)
         | Some f =>
             match s_info s with
             | None => Err RuntimeError
             | Some i => Ok (View [(O, 0, fi_size i)] (if buffering =? 0 then None else Some (if buffering <=? 0 then 8192 else buffering)))
             end
         end.
End Single.
