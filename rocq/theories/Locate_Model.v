(** Model of where the index of an archive is looked for and created: SQLiteIndex.py 208-390, 594-672, 1134-1384 and
    utils.ensure_writable_path, utils.unchecked_remove.
    Simplifications: the disk maps path spellings to the contents of regular files (no links, folders only show in the answers of
    [write]); the schema and metadata checks of _load_index are one function [verdict] (the table checks are modelled in
    Crash_Model.v) and leave no connection behind if they raise; logging is left out; opening a connection to a file whose content
    passes does not change the file. *)
From Coq Require Import Ascii String.
From Verif Require Import PyBase PyStr Path_Model.
Open Scope Z_scope.

(** [p in s] for strings *)
Fixpoint contains (p s : str) : bool :=
  starts_with p s || match s with [] => false | _ :: r => contains p r end.
(** [s.count(p)].  Simplification: counts the positions, which is the same for '://' because it does not overlap itself. *)
Fixpoint count_sub (p s : str) : nat :=
  ((if starts_with p s then 1 else 0) + match s with [] => 0 | _ :: r => count_sub p r end)%nat.
Definition is_url (p : str) : bool := contains $"://" p.
(** s.removeprefix(p) *)
Definition removeprefix (p s : str) : str := if starts_with p s then skipn (List.length p) s else s.
(** s.replace("/", "_") *)
Definition flat (s : str) : str := map (fun c => if char_eqb c slash then "_"%char else c) s.
Definition memory : str := $":memory:".

(** os.path.join of two parts *)
Definition path_join (a b : str) : str :=
  if starts_with $"/" b then b else if str_eqb a [] || ends_with $"/" a then a ++ b else a ++ $"/" ++ b.

(** What writing one MiB to a path does: it works, raises without creating the file, or raises (disk full) and leaves a file. *)
Inductive write_result (C : Type) : Type := Written | Denied | Cut (c : C).
Arguments Written {C}. Arguments Denied {C}. Arguments Cut {C} c.

(** _undo_compression and _copy_to_temp of _load_index, SQLiteIndex.py 1199-1228: not compressed; compressed but the backend is
    missing or does not open; copied, with the content of the temporary file and the exception of the copy, if any. *)
Inductive undone (C : Type) : Type := Plain | Unopened (e : exn) | Copied (c : C) (e : option exn).
Arguments Plain {C}. Arguments Unopened {C} e. Arguments Copied {C} c e.

(** The indexFolders argument of SQLiteIndex.__init__: None, a string or a list. *)
Inductive folders_argument : Type := FoldersNone | FoldersOne (f : str) | FoldersMany (l : list str).

(** Where the open database lies. *)
Inductive place : Type := Nowhere | Memory | Temporary | OnDisk (p : str).

Section Locate.
  Context {C : Type}.
  Variable size : C -> Z.
  (** os.path.expanduser: the home folder for "~" and "~user", [None] if it is not known *)
  Variable home : str -> option str.
  Variable cwd : str.
  (** all extensions of the formats of COMPRESSION_BACKENDS in table order *)
  Variable extensions : list str.

  Definition filesystem := str -> option C.
  Definition put (fs : filesystem) (p : str) (o : option C) : filesystem := fun q => if str_eqb q p then o else fs q.

  (** posixpath.expanduser *)
  Definition expanduser (p : str) : str :=
    match p with
    | c :: _ =>
      if char_eqb c "~"%char then
        let '(head, rest) := match split1 slash p with Some (a, b) => (a, slash :: b) | None => (p, []) end in
        match home head with
        | None => p
        | Some h => let r := rstrip slash h ++ rest in if str_eqb r [] then $"/" else r
        end
      else p
    | [] => p
    end.
  (** os.path.abspath *)
  Definition abspath (p : str) : str := posix_normpath (if starts_with $"/" p then p else path_join cwd p).

  (** SQLiteIndex.__init__, SQLiteIndex.py 274-280.  [xdg]: get_xdg_cache_home() if it is given and the folder exists. *)
  Definition index_folders (xdg : option str) (a : folders_argument) : list str :=
    match a with
    | FoldersNone => [] :: match xdg with Some x => [path_join x $"ratarmount"] | None => [] end ++ [$"~/.ratarmount"]
    | FoldersOne f => [f]
    | FoldersMany l => l
    end.

  (** the loop for compressed indexes, SQLiteIndex.py 340-347: os.path.isfile(path) and st_size > 0 *)
  Definition default_paths (fs : filesystem) (default : str) : list str :=
    default :: filter (fun p => match fs p with Some c => 0 <? size c | None => false end) (map (fun e => default ++ $"." ++ e) extensions).

  (** SQLiteIndex.get_possible_index_file_paths, SQLiteIndex.py 307-359 *)
  Definition possible_paths (fs : filesystem) (index : option str) (folders : list str) (archive : option str) (ignore_current : bool) : list str :=
    let index := match index with Some [] => None | _ => index end in
    let archive := match archive with Some [] => None | _ => archive end in
    let rest url :=
      match archive with
      | None => url
      | Some a =>
        let default := a ++ $".index.sqlite" in
        let defaults := default_paths fs default in
        match folders with
        | [] => url ++ defaults ++ [memory]
        | _ => url ++ flat_map (fun folder =>
                 match folder with
                 | [] => if ignore_current then [] else defaults
                 | _ => [abspath (expanduser (path_join folder (flat default)))]
                 end) folders
        end
      end in
    match index with
    | None => rest []
    | Some i => if str_eqb i memory then []
                else if is_url i then rest [i] else [abspath (expanduser i)]
    end.

  (** ** Loading *)
  (** os.remove works (permissions of the folder) *)
  Variable removable : str -> bool.
  Variable undo : C -> undone C.
  (** fsspec.open(url).read(), raises if fsspec is missing *)
  Variable fetch : str -> res C.
  (** opening the database and the checks of _load_index 1262-1299 with the checkMetadata callback *)
  Variable verdict : C -> res unit.

  Record state : Type := mkState {
    disk : filesystem;
    connection : option C;      (* the content of the opened database *)
    opened : place;             (* self.indexFilePath *)
    temporary : option C;       (* the content of self._temporaryIndexFile *)
    read_only : bool;
    prefer_memory : bool }.
  Definition with_disk (st : state) d := mkState d (connection st) (opened st) (temporary st) (read_only st) (prefer_memory st).
  Definition with_temporary (st : state) t := mkState (disk st) (connection st) (opened st) t (read_only st) (prefer_memory st).

  (** the end of _load_index, SQLiteIndex.py 1246-1336: the temporary file is taken if there is one *)
  Definition load_database (st : state) (path : str) (content : option C) : res unit * state :=
    match (match temporary st with Some t => Some t | None => content end) with
    | None => (Ok tt, st)
    | Some c =>
      match verdict c with
      | Ok _ => (Ok tt, mkState (disk st) (Some c) (match temporary st with Some _ => Temporary | None => OnDisk path end) (temporary st) (read_only st) (prefer_memory st))
      | Err e => (Err e, mkState (disk st) None (opened st) (temporary st) (read_only st) (prefer_memory st))
      end
    end.

  (** SQLiteIndex._load_index, SQLiteIndex.py 1175-1336 *)
  Definition load_index (st : state) (path : str) : res unit * state :=
    match connection st with Some _ => (Ok tt, st) | None =>
    let path := if Nat.eqb (count_sub $"://" path) 1 then removeprefix $"file://" path else path in
    if is_url path then
      match fetch path with
      | Err e => (Err e, st)
      | Ok c =>
        match undo c with
        | Unopened e => (Err e, st)
        | Copied c' (Some e) => (Err e, with_temporary st (Some c'))
        | Copied c' None => load_database (with_temporary st (Some c')) path None
        | Plain => load_database (with_temporary st (Some c)) path None
        end
      end
    else
      match disk st path with
      | None => (Ok tt, st)
      | Some c =>
        match undo c with
        | Unopened e => (Err e, st)
        | Copied c' (Some e) => (Err e, with_temporary st (Some c'))
        | Copied c' None => load_database (with_temporary st (Some c')) path None
        | Plain => load_database st path (Some c)
        end
      end
    end.

  Definition is_loaded (st : state) : bool := match connection st with Some _ => true | None => false end.

  (** os.remove *)
  Definition os_remove (fs : filesystem) (p : str) : res unit * filesystem :=
    match fs p with
    | None => (Err FileNotFound, fs)
    | Some _ => if removable p then (Ok tt, put fs p None) else (Err (OSErr 13), fs)
    end.

  (** SQLiteIndex._try_load_index, SQLiteIndex.py 1338-1384 *)
  Definition try_load_index (st : state) (path : str) : res bool * state :=
    if is_loaded st then (Ok true, st)
    else match load_index st path with
         | (Err MismatchingIndexError, st') => (Err MismatchingIndexError, st')
         | (Err _, st') =>
           let st'' := if negb (read_only st') && negb (is_url path) then with_disk st' (snd (os_remove (disk st') path)) else st' in
           (Ok (is_loaded st''), st'')
         | (Ok _, st') => (Ok (is_loaded st'), st')
         end.

  (** SQLiteIndex.open_existing, SQLiteIndex.py 366-370 *)
  Fixpoint open_existing (st : state) (paths : list str) : res unit * state :=
    match paths with
    | [] => (Ok tt, st)
    | p :: ps => match try_load_index st p with
                 | (Err e, st') => (Err e, st')
                 | (Ok true, st') => (Ok tt, st')
                 | (Ok false, st') => open_existing st' ps
                 end
    end.

  (** SQLiteIndex.clear_indexes, SQLiteIndex.py 361-364 *)
  Fixpoint clear_indexes (fs : filesystem) (paths : list str) : res unit * filesystem :=
    match paths with
    | [] => (Ok tt, fs)
    | p :: ps =>
      if negb (str_eqb p []) && match fs p with Some _ => true | None => false end
      then match os_remove fs p with
           | (Ok _, fs') => clear_indexes fs' ps
           | (Err e, fs') => (Err e, fs')
           end
      else clear_indexes fs ps
    end.

  (** ** Creating *)
  Variable write : str -> write_result C.
  (** creating a table works, no sqlite3.OperationalError *)
  Variable sql_usable : str -> bool.
  (** the content of a new database with the tables of _CREATE_TABLES *)
  Variable fresh : C.

  (** utils.ensure_writable_path, utils.py 422-455.  Simplification: unlinking the file that was just written works. *)
  Definition ensure_writable_path (fs : filesystem) (p : str) : bool * filesystem :=
    if is_url p then (false, fs)
    else if match fs p with Some c => 0 <? size c | None => false end then (false, fs)
    else match write p with
         | Written => (true, put fs p None)
         | Denied => (false, fs)
         | Cut c => (false, put fs p (Some c))
         end.

  (** SQLiteIndex._path_can_be_used_for_sqlite, SQLiteIndex.py 596-613, with unchecked_remove in the finally clause *)
  Definition can_be_used (fs : filesystem) (p : str) : bool * filesystem :=
    match ensure_writable_path fs p with
    | (false, fs') => (false, fs')
    | (true, fs') => (sql_usable p, put fs' p None)
    end.

  Fixpoint find_usable (fs : filesystem) (paths : list str) : option str * filesystem :=
    match paths with
    | [] => (None, fs)
    | p :: ps => match can_be_used fs p with
                 | (true, fs') => (Some p, fs')
                 | (false, fs') => find_usable fs' ps
                 end
    end.

  (** SQLiteIndex.open_writable, SQLiteIndex.py 372-390, with _create_sql_db 643-660: the path was just removed, so that there are
      no conflicting tables *)
  Definition open_writable (st : state) (paths : list str) : res unit * state :=
    if read_only st then (Ok tt, st)
    else
      let st' :=
        match paths, prefer_memory st with
        | _ :: _, false =>
          match find_usable (disk st) paths with
          | (Some p, fs) => if str_eqb p memory then mkState fs (Some fresh) Memory (temporary st) false false
                            else mkState (put fs p (Some fresh)) (Some fresh) (OnDisk p) (temporary st) false false
          | (None, fs) => with_disk st fs
          end
        | _, _ => mkState (disk st) (Some fresh) Memory (temporary st) false (prefer_memory st)
        end in
      if is_loaded st' then (Ok tt, st') else (Err RatarmountError, st').
End Locate.
