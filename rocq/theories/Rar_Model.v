(** Model of the RAR backend, /repo/core/ratarmountcore/mountsource/formats/rar.py 51-215. *)
From Coq Require Import Ascii String.
From Verif Require Import PyBase PyDict PyStr Path_Model FileInfo.
Local Open Scope Z_scope.

(** rarfile.RarInfo as far as it is used; [ri_time] is date_time as a timestamp (None if it is missing), [ri_id] identifies the entry. *)
Record rar_info := mkRar { ri_size : Z; ri_time : option Z; ri_mode : Z; ri_redir : option str; ri_dir : bool; ri_id : nat }.

(** "while result.startswith('../'): result = result[3:]", rar.py 57-58 *)
Fixpoint drop_parents (fuel : nat) (s : str) : str :=
  match fuel with
  | O => s
  | S n => if starts_with $"../" s then drop_parents n (skipn 3 s) else s
  end.
(** _clean_path, rar.py 55-59 *)
Definition clean_path (path : str) : str :=
  let result := posix_normpath path ++ (if ends_with $"/" path then $"/" else []) in
  drop_parents (length result) result.

(** self.files, rar.py 51: infolist gives (filename, info) *)
Definition rar_files (infolist : list (str * rar_info)) : list (str * rar_info) :=
  dict_of str_eqb (map (fun '(filename, info) => (clean_path filename, info)) infolist).

(** _get_mode, rar.py 91-92 *)
Definition rar_mode (i : rar_info) : Z :=
  Z.lor (ri_mode i) (match ri_redir i with Some _ => S_IFLNK | None => if ri_dir i then S_IFDIR else S_IFREG end).

Section Rar.
Variables now uid gid : Z.

(** _convert_to_file_info, rar.py 94-113 *)
Definition rar_file_info (p : str) (i : rar_info) : finfo (option (str * rar_info)) :=
  mkInfo (ri_size i) (match ri_time i with Some t => t | None => 0 end) (rar_mode i)
    (match ri_redir i with Some target => target | None => [] end) uid gid [Some (p, i)].

(** _get_name, rar.py 122-136 *)
Definition get_name (folderPath filePath : str) : option str :=
  if negb (starts_with folderPath filePath) then None
  else
    let filePath := strip slash (skipn (length folderPath) filePath) in
    match filePath with
    | [] => None
    | _ => match split1 slash filePath with
           | Some (first, _) => Some first
           | None => Some filePath
           end
    end.

(** "path = path.strip('/'); if path: path += '/'", rar.py 140-142 and 153-155 *)
Definition folder_prefix (path : str) : str :=
  let path := strip slash path in match path with [] => [] | _ => path ++ $"/" end.

(** "{name: value for normalizedPath, info in self.files.items() if name}" *)
Definition comprehend {V} (files : list (str * rar_info)) (path : str) (value : str -> rar_info -> V) : list (str * V) :=
  dict_of str_eqb (flat_map (fun '(p, i) => match get_name (folder_prefix path) p with
                                            | Some (c :: n) => [(c :: n, value p i)]
                                            | _ => []
                                            end) files).
(** list, rar.py 139-149 *)
Definition rar_list (files : list (str * rar_info)) (path : str) : list (str * finfo (option (str * rar_info))) := comprehend files path rar_file_info.
(** list_mode, rar.py 152-162 *)
Definition rar_list_mode (files : list (str * rar_info)) (path : str) : list (str * Z) := comprehend files path (fun _ i => rar_mode i).

(** _lookups, rar.py 164-194 *)
Definition rar_lookups (files : list (str * rar_info)) (path : str) : list (finfo (option (str * rar_info))) :=
  let pathAsDir := strip slash path ++ $"/" in
  if str_eqb pathAsDir $"/" then [root_info now uid gid [None]]
  else
    let infoList := map (fun '(p, i) => rar_file_info p i) (filter (fun '(p, _) => str_eqb (rstrip slash p) (lstrip slash path)) files) in
    if negb (existsb (fun info => match last (fi_userdata info) None with Some (p, _) => str_eqb p pathAsDir | None => false end) infoList)
       && existsb (fun '(p, _) => starts_with pathAsDir (rstrip slash p)) files
    then infoList ++ [mkInfo 0 now (Z.lor 511 S_IFDIR) [] uid gid [None]]
    else infoList.

(** "l[k]" *)
Definition py_index {A} (l : list A) (k : Z) : res A :=
  let k := if k <? 0 then k + len l else k in
  if k <? 0 then Err IndexError else match nth_error l (Z.to_nat k) with Some x => Ok x | None => Err IndexError end.
(** lookup, rar.py 197-199 *)
Definition rar_lookup (files : list (str * rar_info)) (path : str) (fileVersion : Z) : res (option (finfo (option (str * rar_info)))) :=
  let infos := rar_lookups files path in
  if (- len infos <=? fileVersion) && (fileVersion <? len infos)
  then match py_index infos fileVersion with Ok f => Ok (Some f) | Err e => Err e end
  else Ok None.
(** versions, rar.py 202-203 *)
Definition rar_versions (files : list (str * rar_info)) (path : str) : Z := len (rar_lookups files path).
(** open, rar.py 206-210: the entry whose content is read; None[1] is a TypeError *)
Definition rar_open (info : finfo (option (str * rar_info))) : res rar_info :=
  match last (fi_userdata info) None with Some (_, i) => Ok i | None => Err TypeError end.
End Rar.
