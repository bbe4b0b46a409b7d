(** Model of the choice of the backend that opens a mount source, /repo/core/ratarmountcore/mountsource/factory.py 258-378, and of
    the choice of a decompressor, /repo/core/ratarmountcore/compressions.py 150-178 and 407-467.
    The tables of backends and formats are parameters.  A backend is the function that opens a file with it; it depends on the
    position of the file object, which it may move.  When a path is given, the backend opens the file itself and the position is the
    one of the separate object that is used for the format checks.  Simplifications: sets are lists, log messages are left out, and
    URLs (138-255) are resolved before. *)
From Coq Require Import Ascii String.
From Verif Require Import PyBase PyDict PyStr Format_Model.
Local Open Scope Z_scope.

(** str.lower of ASCII strings *)
Definition lower_str (s : str) : str := map lower s.

Section Factory.
Variable Src : Type.

(** ArchiveBackendInfo, archives.py 65-75: open returns a mount source, None or raises, and leaves the file object somewhere *)
Record archive_backend := mkArchive { a_open : Z -> res (option Src) * Z; a_formats : list Z }.
(** CompressionBackendInfo, compressions.py 76-86, as far as it is used here *)
Record compression_backend := mkCompression { c_formats : list Z; c_modules : list str; c_delegated : str }.

Variable archives : list (str * archive_backend).             (* ARCHIVE_BACKENDS, archives.py 84-150 *)
Variable compressions : list (str * compression_backend).     (* COMPRESSION_BACKENDS, compressions.py 89-147 *)
Variable extensions : Z -> list str.                          (* FILE_FORMATS[formatId].extensions *)
Variable might_be : Z -> Z -> res bool.                       (* might_be_format at a position; it restores the position *)

(** _matches_extension, factory.py 258-263 *)
Definition matches_extension (fileName : str) (formats : list Z) : bool :=
  existsb (fun formatId => existsb (fun extension => ends_with (dotc :: lower_str extension) (lower_str fileName)) (extensions formatId)) formats.

(** find_backends_by_extension, factory.py 266-272 *)
Definition find_backends_by_extension (fileName : str) : list str :=
  map fst (filter (fun b => matches_extension fileName (a_formats (snd b))) archives) ++
  map (fun b => c_delegated (snd b)) (filter (fun b => matches_extension fileName (c_formats (snd b))) compressions).

(** any(might_be_format(file, fid) for fid in backend.formats), factory.py 344 *)
Fixpoint any_format (pos : Z) (formats : list Z) : res bool :=
  match formats with
  | [] => Ok false
  | fid :: r => match might_be fid pos with
                | Ok true => Ok true
                | Ok false => any_format pos r
                | Err e => Err e
                end
  end.

Inductive opened := Opened (name : str) (source : Src) | SingleFile (name : str) | Folder | IndexedFolder.

(** The loop over the backends, factory.py 329-373.  [object] says whether fileOrPath is a file object.  The third component
    collects the backends whose open function was called, in order. *)
Fixpoint open_loop (object : bool) (names tried : list str) (pos : Z) : res (option (str * Src)) * list str :=
  match names with
  | [] => (Ok None, [])
  | name :: rest =>
    let name := match dget str_eqb compressions name with Some info => c_delegated info | None => name end in
    if existsb (str_eqb name) tried then open_loop object rest tried pos
    else
      let tried := name :: tried in
      match dget str_eqb archives name with
      | None => open_loop object rest tried pos
      | Some backend =>
        match (match a_formats backend with [] => Ok true | _ => any_format pos (a_formats backend) end) with
        | Err e => (Err e, [])
        | Ok false => open_loop object rest tried pos
        | Ok true =>
          let '(r, trace) :=
            match a_open backend pos with
            | (Ok (Some source), _) => (Ok (Some (name, source)), [])
            | (Ok None, pos') => open_loop object rest tried (if object then pos' else pos)
            | (Err _, _) => open_loop object rest tried (if object then 0 else pos)
            end in
          (r, name :: trace)
        end
      end
  end.

(** What fileOrPath is, factory.py 294-321: a path (missing, a folder, the first part of a split file that is joined under a name,
    another file) or a file object at a position with the option tarFileName. *)
Inductive mounted := Missing | Directory | Split (joinedName : str) | RegularFile (path : str) | Object (tarFileName : str) (pos : Z).

(** open_mount_source, factory.py 275-378 *)
Definition open_mount_source (forceFolderIndex : bool) (prioritized : list str) (what : mounted) : res opened * list str :=
  let all := map fst archives in
  let finish (r : res (option (str * Src)) * list str) (fallback : res opened) :=
    (match fst r with
     | Err e => Err e
     | Ok (Some (name, source)) => Ok (Opened name source)
     | Ok None => fallback
     end, snd r) in
  match what with
  | Missing => (Err RatarmountError, [])
  | Directory => (Ok (if forceFolderIndex then IndexedFolder else Folder), [])
  | Split joinedName =>
    finish (open_loop true (prioritized ++ [] ++ all) [] 0)
      (match joinedName with [] => Err RatarmountError | _ => Ok (SingleFile joinedName) end)
  | RegularFile path => finish (open_loop false (prioritized ++ find_backends_by_extension path ++ all) [] 0) (Err RatarmountError)
  | Object name pos => finish (open_loop true (prioritized ++ find_backends_by_extension name ++ all) [] pos) (Err RatarmountError)
  end.

(** find_available_backend, compressions.py 150-178, with enabledBackends left at None; [loaded] is sys.modules.
    Gives the name with the backend. *)
Definition modules_loaded (loaded : list str) (b : compression_backend) : bool := forallb (fun m => existsb (str_eqb m) loaded) (c_modules b).
Definition find_available_backend (loaded : list str) (compression : Z) (prioritized : list str) : option (str * compression_backend) :=
  let matching := map fst (filter (fun b => existsb (Z.eqb compression) (c_formats (snd b))) compressions) in
  let try_names (skip : str -> bool) (names : list str) :=
    fold_left (fun (found : option (str * compression_backend)) name =>
      match found with
      | Some _ => found
      | None =>
        if skip name then None
        else match dget str_eqb compressions name with
             | None => None
             | Some b => if modules_loaded loaded b then Some (name, b) else None
             end
      end) names None in
  match try_names (fun name => negb (existsb (str_eqb name) matching)) prioritized with
  | Some b => Some b
  | None => try_names (fun name => existsb (str_eqb name) prioritized) matching
  end.

(** The loop of detect_compression, compressions.py 428-465, for seekable file objects at [oldOffset].  [opens] says whether the
    backend with that name can open a file of that format and read a byte from it, or raises, and where it leaves the file. *)
Fixpoint detect_compression (loaded prioritized : list str) (opens : str -> Z -> bool * Z) (ids : list Z) (oldOffset pos : Z)
  : res (option Z) * Z :=
  match ids with
  | [] => (Ok None, pos)
  | id :: rest =>
    match might_be id pos with
    | Err e => (Err e, pos)
    | Ok false => detect_compression loaded prioritized opens rest oldOffset pos
    | Ok true =>
      match find_available_backend loaded id prioritized with
      | None => (Ok None, pos)
      | Some (name, backend) =>
        match opens name id with
        | (true, pos) => let pos := oldOffset in (Ok (Some id), pos)
        | (false, pos) => let pos := oldOffset in detect_compression loaded prioritized opens rest oldOffset pos
        end
      end
    end
  end.

End Factory.
