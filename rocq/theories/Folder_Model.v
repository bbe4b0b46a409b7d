(** Model of the folder backends: /repo/core/ratarmountcore/mountsource/formats/folder.py 15-342. *)
From Coq Require Import Ascii String.
From Verif Require Import PyBase PyDict PyStr Path_Model FileInfo Index_Model.
Local Open Scope Z_scope.

(** max_up_count, folder.py 15-28 *)
Definition max_up_count (path : str) : Z :=
  if starts_with $"/" path then 0
  else fst (fold_left (fun '(result, upCount) part =>
              if str_eqb part $".." then (Z.max result (upCount + 1), upCount + 1)
              else if str_eqb part $"." || str_eqb part [] then (result, upCount)
              else (result, upCount - 1)) (split slash path) (0, 0)).

(** ** The file system *)

(** The fields of os.stat_result that are used. *)
Record stats := mkStats { st_size : Z; st_mtime : Z; st_mode : Z; st_uid : Z; st_gid : Z }.

(** A file: what lstat returns, the target if it is a symbolic link, and the entries if it is a folder. *)
Inductive node := Node (s : stats) (link : option str) (children : option (list (str * node))).
Definition n_stats (n : node) := let 'Node s _ _ := n in s.
Definition n_link (n : node) := let 'Node _ l _ := n in l.
Definition n_children (n : node) := let 'Node _ _ c := n in c.

Fixpoint walk (n : node) (comps : list str) : option node :=
  match comps with
  | [] => Some n
  | c :: r => match n_children n with
              | Some cs => match dget str_eqb cs c with Some m => walk m r | None => None end
              | None => None
              end
  end.

Definition nonempty (s : str) : bool := negb (str_eqb s []).

(** os.path.join(a, b) for a second argument that does not start with a slash *)
Definition os_join (a b : str) : str := if str_eqb a [] || ends_with $"/" a then a ++ b else a ++ $"/" ++ b.

Section Folder.
  (** The folder and what is in it. *)
  Variable root : str.
  Variable tree : node.
  (** os.path.realpath and os.stat for an existing target of the symbolic link at a path, None if it does not exist. *)
  Variable follow : str -> option (str * stats).

  (** What the operating system finds at a path below [root], without following symbolic links.  Simplification: paths do
      not lead through symbolic links and hold no "." and "..", because FUSE only asks for such paths; only lookup is called
      with the path of a link itself. *)
  Definition os_at (p : str) : option node :=
    if starts_with root p then walk tree (filter nonempty (split slash (skipn (length root) p))) else None.

  (** _realpath, folder.py 66-68 *)
  Definition realpath (path : str) : str := fold_left os_join (split slash (strip slash path)) root.

  (** _stats_to_file_info, folder.py 71-82 *)
  Definition stats_to_file_info (s : stats) (path linkname : str) : finfo str :=
    mkInfo (st_size s) (st_mtime s) (st_mode s) linkname (st_uid s) (st_gid s) [path].

  (** exists, folder.py 98-99 *)
  Definition exists_ (path : str) : bool := match os_at (realpath path) with Some _ => true | None => false end.

  (** lookup, folder.py 102-128 *)
  Definition lookup (path : str) (fileVersion : Z) : option (finfo str) :=
    if negb ((fileVersion =? 0) || (fileVersion =? 1)) || negb (exists_ path) then None
    else match os_at (realpath path) with
         | None => None (* not reachable *)
         | Some n =>
             let plain linkname := Some (stats_to_file_info (n_stats n) (lstrip slash path) linkname) in
             match n_link n with
             | Some linkname =>
                 if negb (starts_with $"/" linkname)
                    && (Z.of_nat (count_occ ascii_dec (strip slash path) slash) <? max_up_count linkname)
                 then match follow (realpath path) with
                      | Some (target, s) => Some (stats_to_file_info s target [])
                      | None => plain linkname
                      end
                 else plain linkname
             | None => plain []
             end
         end.

  (** _dir_entry_to_file_info, folder.py 85-91: the arguments [path] and [linkname] are swapped in the last line. *)
  Definition dir_entry_to_file_info (entry : node) (path realpath : str) : finfo str :=
    let linkname := match n_link entry with
                    | Some _ => match os_at realpath with Some n => match n_link n with Some l => l | None => [] end | None => [] end
                    | None => []
                    end in
    stats_to_file_info (n_stats entry) linkname path.

  (** list, folder.py 131-139 *)
  Definition list_ (path : str) : option (list (str * finfo str)) :=
    match os_at (realpath path) with
    | Some (Node _ _ (Some cs)) => Some (dict_of str_eqb (map (fun '(name, e) => (name, dir_entry_to_file_info e path (realpath path))) cs))
    | _ => None
    end.

  (** list_mode, folder.py 142-159 *)
  Definition make_mode (e : node) : Z :=
    if match n_link e with Some _ => true | None => false end then S_IFLNK
    else if match n_children e with Some _ => true | None => false end then S_IFDIR else S_IFREG.
  Definition list_mode (path : str) : option (list (str * Z)) :=
    match os_at (realpath path) with
    | Some (Node _ _ (Some cs)) => Some (dict_of str_eqb (map (fun '(name, e) => (name, make_mode e)) cs))
    | _ => None
    end.

  (** versions, folder.py 162-163 *)
  Definition versions (path : str) : nat := if exists_ path then 1 else 0.

  (** get_file_path, folder.py 191-195 *)
  Definition get_file_path (i : finfo str) : res str :=
    match rev (fi_userdata i) with
    | path :: _ => Ok (if starts_with $"/" path then path else realpath path)
    | [] => Err IndexError
    end.

  (** ** IndexedFolderMountSource *)

  (** The order in which os.walk and the sorting present the entries of a folder: folders first (which includes symbolic
      links to folders, [to_folder]), each part sorted.  Only that it is a permutation matters. *)
  Variable arrange : list (str * node) -> list (str * node).

  (** The folders in the order in which os.walk visits them, folder.py 245, with pathInIndex, folder.py 249-254, and their
      entries.  os.walk does not enter symbolic links. *)
  Fixpoint os_walk (fuel : nat) (path : str) (n : node) : list (str * list (str * node)) :=
    match fuel with
    | O => []
    | S f =>
        match n_children n with
        | Some cs => (path, arrange cs) :: flat_map (fun '(name, c) => os_walk f (path ++ $"/" ++ name) c) (arrange cs)
        | None => []
        end
    end.
  Fixpoint depth (n : node) : nat :=
    match n with
    | Node _ _ (Some cs) => S (fold_right (fun p m => Nat.max (depth (snd p)) m) O cs)
    | _ => 1
    end.

  (** The row of an entry, folder.py 257-292.  Simplifications: the stat calls do not fail; the data offset is None in the
      code and 0 here. *)
  Definition entry_row (path name : str) (e : node) (offsetheader : Z) : row :=
    let s := n_stats e in
    mkRow path name offsetheader 0 (st_size s) (st_mtime s) (st_mode s) 0
      (if is_lnk_mode (st_mode s) then match n_link e with Some l => l | None => [] end else []) (st_uid s) (st_gid s) false false false 0.

  (** The loops, folder.py 241-303; [calls] are the calls of set_file_infos. *)
  Definition add_entry (st : list row * Z * list (list row)) (x : str * str * node) : list row * Z * list (list row) :=
    let '(rows, offsetheader, calls) := st in
    let '(path, name, e) := x in
    let rows := rows ++ [entry_row path name e offsetheader] in
    if 1000 <=? len rows then ([], offsetheader + 1, calls ++ [rows]) else (rows, offsetheader + 1, calls).
  Definition create_index : list (list row) :=
    let entries := flat_map (fun '(path, cs) => map (fun '(name, e) => (path, name, e)) cs) (os_walk (depth tree) [] tree) in
    let '(rows, _, calls) := fold_left add_entry entries ([], 0, []) in
    match rows with [] => calls | _ => calls ++ [rows] end.

  (** _get_path_in_index, folder.py 318-333, with SQLiteIndex.FROM_REGULAR_FILES; [shuffle] is the order in which SQL finds
      the rows. *)
  Variable shuffle : list row -> list row.
  Definition get_path_in_index (files : list row) (offsetheader : Z) : res str :=
    match shuffle (filter (fun r => (Z.land (r_mode r) 61440 =? 32768) && (r_offsetheader r =? offsetheader)) files) with
    | [] => Err ValueError
    | r :: _ => Ok (if str_eqb (r_path r) $"/" then $"/" ++ r_name r else rstrip slash (r_path r) ++ $"/" ++ r_name r)
    end.
  (** open, folder.py 335-342 (open and get_file_path): the path that is opened. *)
  Definition indexed_open (files : list row) (i : finfo tar_data) : res str :=
    match rev (fi_userdata i) with (* SQLiteIndex.get_index_userdata, SQLiteIndex.py 1604-1613 *)
    | u :: _ => match get_path_in_index files (u_offsetheader u) with Ok p => Ok (realpath p) | Err x => Err x end
    | [] => Err RatarmountError
    end.
End Folder.
