(** Model of which command line arguments are accepted as mount sources, /repo/ratarmount/CLIHelpers.py 29-149 and
    /repo/ratarmount/actions.py 191-203, and of unmounting, actions.py 71-142.

    Left out: the texts of messages; what happens when files change between two of the calls. *)
From Coq Require Import Ascii String.
From Verif Require Import PyBase PyStr Format_Model.
Local Open Scope Z_scope.

(** str.split for a separator with several characters; [skip] characters of a separator are still to be passed over. *)
Fixpoint split_sub (sep : str) (skip : nat) (piece : str) (s : str) : list str :=
  match s with
  | [] => [rev piece]
  | c :: r =>
      match skip with
      | S k => split_sub sep k piece r
      | O => if starts_with sep s then rev piece :: split_sub sep (List.length sep - 1) [] r else split_sub sep O (c :: piece) r
      end
  end.

(** ArchiveBackendInfo and CompressionBackendInfo, /repo/core/ratarmountcore/mountsource/archives.py 73-83, compressions.py 80-88: the
    formats, by name, and the required modules. *)
Record backend := mkBackend { b_formats : list str; b_modules : list str }.

(** The keys and modules of COMPRESSION_BACKENDS for Zstandard, compressions.py 90-147. *)
Definition compression_names : list str :=
  [$"rapidgzip-bzip2"; $"rapidgzip"; $"indexed_gzip"; $"xz"; $"lzmaffi"; $"indexed_zstd"; $"libarchive"].

Inductive refusal := NoFsspec | UnknownProtocol | NotAFile | CannotOpen | MissingModule (module : str).
Inductive outcome := Accepted (path : str) | Refused (r : refusal) | Raised (e : exn).

Definition memb (x : str) (l : list str) : bool := existsb (str_eqb x) l.
Definition intersects (a b : list str) : bool := existsb (fun x => memb x b) a.

Section Check.
  (** fsspec.available_protocols(), None without fsspec *)
  Variable fsspec : option (list str).
  Variable isfile isdir exists_ : str -> bool.
  Variable realpath : str -> str.
  (** check_for_split_file_in_folder: the parts (Split_Model.v) *)
  Variable parts : str -> option (list str).
  (** detect_formats (Format_Model.v), by name *)
  Variable detect : str -> list str.
  (** The first 4096 bytes are random by is_random (the position is 0 again after detect_formats). *)
  Variable random_start : str -> bool.
  Variable sqlcipher : bool.
  (** Modules that are imported already, and whether importing one succeeds. *)
  Variable loaded : list str.
  Variable importable : str -> bool.
  (** list(ARCHIVE_BACKENDS.values()) + list(COMPRESSION_BACKENDS.values()) *)
  Variable backends : list backend.
  (** is_multiframe of the zstd file, None if opening fails or it has no such function, and st_size *)
  Variable multiframe : str -> option bool.
  Variable size : str -> Z.

  (** Lines 59-79: whether the warning on a single frame is shown; the file is opened with the backend of this name. *)
  Definition zstd_warning (key : str) (path : str) : bool :=
    if memb $"ZSTANDARD" (detect path) then
      if memb key compression_names then
        match multiframe path with Some false => 1024 * 1024 <? size path | _ => false end
      else false  (* KeyError, suppressed *)
    else false.
  Definition warns (path : str) : bool := zstd_warning $"indexed_std" path.

  (** Lines 84-91 *)
  Definition import_modules (formats : list str) : list str :=
    fold_left (fun sys b =>
                 if intersects formats (b_formats b) then
                   fold_left (fun sys m => if memb m sys then sys else if importable m then sys ++ [m] else sys) (b_modules b) sys
                 else sys) backends loaded.

  (** Lines 122-146: the first module that still cannot be imported.  Packages are not empty for modules that are not part of Python; those
      that are part of it are always there. *)
  Definition missing_module (sys : list str) : option str :=
    List.find (fun m => negb (memb m sys) && negb (importable m)) (flat_map b_modules (filter (fun b => match b_formats b with [] => false | _ => true end) backends)).

  (** check_input_file_type, lines 29-149 *)
  Definition check_input_file_type (path : str) : outcome :=
    match split_sub $"://" 0 [] path with
    | protocols :: _ :: _ =>
        match fsspec with
        | None => Refused NoFsspec
        | Some known => if forallb (fun p => memb p known) (split_sub $"::" 0 [] protocols) then Accepted path else Refused UnknownProtocol
        end
    | _ =>
        if negb (isfile path) then Refused NotAFile
        else
          let path := realpath path in
          match parts path with
          | Some (first :: _) => Accepted first
          | Some [] => Raised IndexError
          | None =>
              let formats := filter (fun f => negb (str_eqb f $"SQLAR")) (detect path) in
              let sys := import_modules formats in
              if existsb (fun b => intersects formats (b_formats b) && forallb (fun m => memb m sys) (b_modules b)) backends then Accepted path
              else
                let supported := flat_map b_formats (filter (fun b => forallb (fun m => memb m sys) (b_modules b)) backends) in
                if negb (intersects supported formats) then
                  if sqlcipher && ends_with $".sqlar" (map lower path) && random_start path then Accepted path else Refused CannotOpen
                else match missing_module sys with Some m => Refused (MissingModule m) | None => Accepted path end
          end
    end.

  (** zipfile.is_zipfile, and rarfile.is_rarfile if the module is there *)
  Variable is_zip is_rar : str -> bool.
  (** check_mount_source, actions.py 191-203; other exceptions than ArgumentTypeError are raised on. *)
  Definition check_mount_source (path : str) : outcome :=
    match check_input_file_type path with
    | Refused r =>
        if negb (exists_ path) then Refused r
        else if isdir path || is_zip path || is_rar path then Accepted (realpath path)
        else Refused r
    | o => o
    end.
End Check.

(** Unmounting.  [World] is the state of the system. *)
Section Unmount.
  Context {World : Type}.
  (** os.path.ismount *)
  Variable ismount : World -> str -> bool.
  (** A call of "program -u mountPoint" or "umount mountPoint": whether it succeeded, and the state afterwards. *)
  Variable run : str -> str -> World -> bool * World.
  (** time.sleep(1) *)
  Variable sleep : World -> World.
  (** Other fusermount programs in PATH that can be executed, actions.py 87-93 *)
  Variable others : list str.

  (** The programs tried in turn until one succeeds. *)
  Fixpoint try_all (programs : list str) (mountPoint : str) (w : World) : bool * World :=
    match programs with
    | [] => (false, w)
    | p :: r => let '(ok, w) := run p mountPoint w in if ok then (true, w) else try_all r mountPoint w
    end.

  (** unmount, actions.py 71-113 *)
  Definition unmount (mountPoint : str) (w : World) : World :=
    let '(ok, w) := run $"fusermount" mountPoint w in
    if ok then w
    else
      let '(ok, w) := if ismount w mountPoint then try_all others mountPoint w else (false, w) in
      if ok then w
      else if ismount w mountPoint then snd (run $"umount" mountPoint w) else w.

  (** unmount_list_checked, actions.py 116-142: the exit code, and the mount points named in error messages. *)
  Definition unmount_list (mountPoints : list str) (w : World) : res (Z * list str * World) :=
    match mountPoints with
    | [] => Err RatarmountError
    | _ =>
        let w := fold_left (fun w m => unmount m w) mountPoints w in
        if existsb (ismount w) mountPoints then
          let w := sleep w in
          let failed := filter (ismount w) mountPoints in
          Ok (match failed with [] => 0 | _ => 1 end, failed, w)
        else Ok (0, [], w)
    end.
End Unmount.
