(** Model of core/ratarmountcore/mountsource/formats/fsspec.py (a remote file system as a mount source) and of
    core/ratarmountcore/SQLiteIndexedTarFsspec.py (a mount source as a file system for fsspec).

    Not modelled: the fsspec implementations themselves, which are a parameter; the Dropbox workaround; dates (see FsTime_Model.v); listings that
    are plain names although details are asked for. *)
From Coq Require Import Ascii String.
From Verif Require Import PyBase PyDict PyStr FileInfo.
Local Open Scope Z_scope.

(** An entry as fsspec describes it: full name, type directory or not, size (may be None), modification time (0 if unknown),
    and whether the mime type is text/html. *)
Record entry := mkEntry { e_name : str; e_dir : bool; e_size : option Z; e_mtime : Z; e_html : bool }.

Section Fsspec.
  Context {A : Type}.

  (** A file system of fsspec. *)
  Record remote := mkRemote {
    r_lexists : str -> bool;
    r_isdir : str -> bool;
    r_info : str -> res entry;
    r_listdir : str -> res (list entry);
    r_open : str -> res (list A) }.

  (** [urllib.parse.quote] and [unquote]. *)
  Variables quote unquote : str -> str.
  Variables now uid gid : Z.

  (** FSSpecMountSource, fsspec.py 72-98: the file system, whether it is HTTP, whether paths are to be quoted (HTTP and WebDAV),
      whether they have no leading slash (GitHub), and the prefix. *)
  Record source := mkSource { s_fs : remote; s_http : bool; s_quote : bool; s_noslash : bool; s_prefix : option str }.

  (** [__init__], fsspec.py 72-98 *)
  Definition fsspec_init (fs : remote) (http webdav github : bool) (prefix : option str) : source :=
    mkSource fs http (http || webdav) github
      (match prefix with
       | Some p => match strip slash p with
                   | [] => None
                   | _ => if r_isdir fs p then Some (rstrip slash p) else None
                   end
       | None => None
       end).

  (** [_get_path], fsspec.py 100-117 *)
  Definition get_path (s : source) (path0 : str) : str :=
    let path := if s_quote s then quote path0 else path0 in
    match s_prefix s with
    | Some ((_ :: _) as prefix) =>
        if str_eqb path [] || str_eqb path $"/" then prefix
        else rstrip slash prefix ++ slash :: lstrip slash path
    | _ =>
        if s_noslash s then lstrip slash path
        else if negb (r_lexists (s_fs s) path) && r_lexists (s_fs s) (lstrip slash path) then lstrip slash path
        else path
    end.

  (** [_get_mode], fsspec.py 119-121 *)
  Definition entry_mode (e : entry) : Z := Z.lor 365 (if e_dir e then S_IFDIR else S_IFREG).

  (** [_convert_to_file_info], fsspec.py 139-155 *)
  Definition convert (e : entry) (path : str) : finfo str :=
    mkInfo (match e_size e with Some n => n | None => 0 end) (e_mtime e) (entry_mode e) [] uid gid [path].

  (** [exists], fsspec.py 163-165 *)
  Definition fsspec_exists (s : source) (path : str) : bool := r_lexists (s_fs s) (get_path s path).

  (** The key of an entry in [_list], fsspec.py 209-215 *)
  Definition entry_key (prefixToStrip : str) (name : str) : str :=
    if starts_with prefixToStrip (strip slash name)
    then strip slash (skipn (length prefixToStrip) (strip slash name))
    else name.

  (** [_list], fsspec.py 166-245, for infos or modes ([f]) *)
  Definition fsspec_list_with {V} (f : entry -> V) (s : source) (path0 : str) : res (list (str * V)) :=
    let path := get_path s path0 in
    match r_listdir (s_fs s) path with
    | Err e => Err e
    | Ok entries =>
        let result := dict_of str_eqb (map (fun e => (entry_key (lstrip slash path) (e_name e), f e)) entries) in
        let result := ddel str_eqb result [] in
        if s_http s then
          Ok (dict_of str_eqb (map (fun nv => (unquote (fst nv), snd nv))
                (filter (fun nv => negb (starts_with $"?" (fst nv) || starts_with $"#" (fst nv))) result)))
        else Ok result
    end.

  (** [list] and [list_mode], fsspec.py 247-253 *)
  Definition fsspec_list (s : source) (path : str) : res (list (str * finfo str)) := fsspec_list_with (fun e => convert e (e_name e)) s path.
  Definition fsspec_list_mode (s : source) (path : str) : res (list (str * Z)) := fsspec_list_with entry_mode s path.

  (** [lookup] and [_lookup_http], fsspec.py 255-306 *)
  Definition fsspec_lookup (s : source) (path0 : str) : res (option (finfo str)) :=
    let path := get_path s path0 in
    if s_http s then
      if negb (r_lexists (s_fs s) path) then Ok None
      else match r_info (s_fs s) path with
           | Err e => Err e
           | Ok e => if e_html e && r_isdir (s_fs s) path then Ok (Some (convert (mkEntry [] true None 0 false) path))
                     else Ok (Some (convert e path))
           end
    else if str_eqb path $"/" || str_eqb path [] then Ok (Some (root_info now uid gid [$"/"]))
    else if negb (r_lexists (s_fs s) path) then Ok None
    else match r_info (s_fs s) path with Err e => Err e | Ok e => Ok (Some (convert e path)) end.

  (** [versions], fsspec.py 308-310 *)
  Definition fsspec_versions (s : source) (path : str) : Z := 1.

  (** [open], fsspec.py 312-316 *)
  Definition fsspec_open (s : source) (i : finfo str) : res (list A) :=
    match rev (fi_userdata i) with [] => Err IndexError | path :: _ => r_open (s_fs s) path end.
End Fsspec.
Arguments remote : clear implicits. Arguments source : clear implicits.

(** * The other direction: SQLiteIndexedTarFsspec.py *)
Section Adaptor.
  Context {A U : Type}.

  (** What list and list_mode give: nothing, names, or a dictionary. *)
  Inductive listing (V : Type) := NoListing | Names (l : list str) | Dict (d : list (str * V)).
  Arguments NoListing {V}. Arguments Names {V}. Arguments Dict {V}.

  (** A mount source. *)
  Record msource := mkMS {
    m_list : str -> listing (finfo U); m_list_mode : str -> listing Z; m_lookup : str -> option (finfo U);
    m_open : finfo U -> res (list A) }.

  (** The dictionary describing a file. *)
  Record detail := mkDetail { d_dir : bool; d_name : str; d_mode : Z; d_size : Z }.

  (** [cls.protocol] *)
  Variable protocol : str.

  (** [path[-n]] *)
  Definition char_from_end (path : str) (n : nat) : res str :=
    if (n =? 0)%nat then match path with c :: _ => Ok [c] | [] => Err IndexError end
    else if (length path <? n)%nat then Err IndexError
    else match nth_error path (length path - n)%nat with Some c => Ok [c] | None => Err IndexError end.

  (** [_stripProtocol], SQLiteIndexedTarFsspec.py 21-23: an index instead of a slice. *)
  Definition strip_protocol (path : str) : res str :=
    if starts_with (protocol ++ $"://") path then char_from_end path (length protocol + 3) else Ok path.

  (** [_file_info_to_dict], SQLiteIndexedTarFsspec.py 25-32; the mode is shown in octal, which is not modelled. *)
  Definition to_detail (name : str) (i : finfo U) : detail := mkDetail (is_dir_mode (fi_mode i)) name (fi_mode i) (fi_size i).

  (** [prefix_path], SQLiteIndexedTarFsspec.py 45-46 *)
  Definition prefix_path (path name : str) : str := match path with [] => name | _ => rstrip slash path ++ slash :: name end.

  (** [ls] with details, SQLiteIndexedTarFsspec.py 48-58 *)
  Definition ls_detail (m : msource) (path : str) : res (list detail) :=
    match strip_protocol path with
    | Err e => Err e
    | Ok stripped =>
        let show (d : list (str * option (finfo U))) :=
          flat_map (fun ni => match snd ni with Some i => [to_detail (prefix_path path (fst ni)) i] | None => [] end) d in
        match m_list m stripped with
        | NoListing => Err FileNotFound
        | Names l => Ok (show (dict_of str_eqb (map (fun n => (prefix_path path n, m_lookup m n)) l)))
        | Dict d => Ok (show (map (fun ni => (fst ni, Some (snd ni))) d))
        end
    end.

  (** [ls] without details, SQLiteIndexedTarFsspec.py 60-65 *)
  Definition ls_names (m : msource) (path : str) : res (list str) :=
    match strip_protocol path with
    | Err e => Err e
    | Ok stripped =>
        match m_list_mode m stripped with
        | NoListing => Err FileNotFound
        | Names l => Ok (map (prefix_path path) l)
        | Dict d => Ok (map (fun nv => prefix_path path (fst nv)) d)
        end
    end.

  (** [info], SQLiteIndexedTarFsspec.py 65-70 *)
  Definition ms_info (m : msource) (path : str) : res detail :=
    match strip_protocol path with
    | Err e => Err e
    | Ok stripped => match m_lookup m stripped with None => Err FileNotFound | Some i => Ok (to_detail path i) end
    end.

  (** [_open], SQLiteIndexedTarFsspec.py 72-87 *)
  Definition ms_open (m : msource) (path mode : str) : res (list A) :=
    if negb (str_eqb mode $"rb") then Err ValueError
    else match strip_protocol path with
         | Err e => Err e
         | Ok stripped => match m_lookup m stripped with None => Err FileNotFound | Some i => m_open m i end
         end.
End Adaptor.
Arguments NoListing {V}. Arguments Names {V}. Arguments Dict {V}.
Arguments msource : clear implicits.
