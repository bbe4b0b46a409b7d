(** Model of core/ratarmountcore/mountsource/formats/git.py: the folders and files of a commit, and of the parts of
    core/ratarmountcore/mountsource/factory.py that take git:// and file:// URLs apart.

    Not modelled: pygit2; user and group; the commit time is a parameter. *)
From Coq Require Import Ascii String.
From Verif Require Import PyBase PyDict PyStr FileInfo.
Local Open Scope Z_scope.

(** An object of the repository: a tree, a blob (with file mode LINK or not), or the commit of a submodule. *)
Inductive gobj :=
| GTree (entries : list (str * gobj))
| GBlob (link : bool) (data : str)
| GModule.

(** [name in tree], [tree[name]]; git.py 56-58 *)
Definition tree_get (entries : list (str * gobj)) (name : str) : option gobj := dget str_eqb entries name.

(** The loop of [_look_up_path], git.py 54-58: names are only looked at while the object is a tree. *)
Fixpoint look_up (obj : gobj) (names : list str) : option gobj :=
  match names with
  | [] => Some obj
  | name :: r =>
      match name, obj with
      | _ :: _, GTree entries => match tree_get entries name with None => None | Some o => look_up o r end
      | _, _ => look_up obj r
      end
  end.

(** GitMountSource: the tree of the commit, the prefix, the time. *)
Record git := mkGit { g_tree : gobj; g_prefix : str; g_time : Z }.

(** [_look_up_path], git.py 52-59 *)
Definition look_up_path (g : git) (path : str) : option gobj :=
  look_up (g_tree g) (split slash (g_prefix g) ++ split slash path).

(** [_convert_to_file_mode], git.py 61-65 *)
Definition git_mode (o : gobj) : Z :=
  match o with
  | GBlob true _ => Z.lor 365 S_IFLNK
  | GTree _ => Z.lor 365 S_IFDIR
  | _ => Z.lor 365 S_IFREG
  end.

Section Git.
  (** [bytes.decode], and the user running the mount. *)
  Variable decode : str -> res str.
  Variables uid gid : Z.

  (** [_convert_to_file_info], git.py 67-77 *)
  Definition git_info (g : git) (o : gobj) (path : str) : res (finfo str) :=
    match (match o with GBlob true data => decode data | _ => Ok [] end) with
    | Err e => Err e
    | Ok linkname =>
        Ok (mkInfo (match o with GBlob _ data => len data | _ => 0 end) (g_time g) (git_mode o) linkname uid gid [path])
    end.

  (** [exists], git.py 85-87 *)
  Definition git_exists (g : git) (path : str) : bool :=
    match look_up_path g path with Some _ => true | None => false end.

  (** The dictionary comprehension of [_list], git.py 93-101: an exception for one entry is one for the whole listing. *)
  Fixpoint git_entries (g : git) (path : str) (entries : list (str * gobj)) : res (list (str * finfo str)) :=
    match entries with
    | [] => Ok []
    | (name, o) :: r =>
        match name with
        | [] => git_entries g path r
        | _ => match git_info g o (path ++ slash :: name) with
               | Err e => Err e
               | Ok i => match git_entries g path r with Err e => Err e | Ok l => Ok ((name, i) :: l) end
               end
        end
    end.

  (** [list], git.py 89-105 *)
  Definition git_list (g : git) (path : str) : res (option (list (str * finfo str))) :=
    match look_up_path g path with
    | Some (GTree entries) =>
        match git_entries g path entries with Err e => Err e | Ok l => Ok (Some (dict_of str_eqb l)) end
    | _ => Ok None
    end.

  (** [list_mode], git.py 107-109 *)
  Definition git_list_mode (g : git) (path : str) : option (list (str * Z)) :=
    match look_up_path g path with
    | Some (GTree entries) =>
        Some (dict_of str_eqb (map (fun e => (fst e, git_mode (snd e))) (filter (fun e => match fst e with [] => false | _ => true end) entries)))
    | _ => None
    end.

  (** [lookup], git.py 111-114; the version is ignored. *)
  Definition git_lookup (g : git) (path : str) : res (option (finfo str)) :=
    match look_up_path g path with
    | None => Ok None
    | Some o => match git_info g o path with Err e => Err e | Ok i => Ok (Some i) end
    end.

  (** [versions], git.py 116-118 *)
  Definition git_versions (g : git) (path : str) : Z := 1.

  (** [open], git.py 119-129: trees and submodules have no [data]; an empty tree is false. *)
  Definition git_open (g : git) (i : finfo str) : res str :=
    match rev (fi_userdata i) with
    | [] => Err IndexError
    | path :: _ =>
        match look_up_path g path with
        | None => Err FileNotFound
        | Some (GBlob _ data) => Ok data
        | Some (GTree []) => Err FileNotFound
        | Some _ => Err AttributeError
        end
    end.

  (** [_get_default_reference], git.py 36-50: [config] is the value of init.defaultBranch, [branches] the local branches with
      [is_head()]. *)
  Definition default_reference (config : option str) (branches : list (str * bool)) : str :=
    match config with
    | Some c => c
    | None =>
        match find (fun b => snd b) branches with
        | Some b => fst b
        | None => match find (fun n => existsb (fun b => str_eqb (fst b) n) branches) [$"master"; $"main"] with
                  | Some n => n
                  | None => $"master"
                  end
        end
    end.

  (** Python's [s.split(sep, 1)] for longer separators: what comes before and after the first one. *)
  Fixpoint split1_at (sep s : str) : option (str * str) :=
    if starts_with sep s then Some ([], skipn (length sep) s)
    else match s with
         | [] => None
         | c :: r => match split1_at sep r with Some (a, b) => Some (c :: a, b) | None => None end
         end.

  (** What a URL asks for. *)
  Inductive url_target := LocalPath (path : str) | Repository (path : option str) (reference : option str) (inside : str) | Remote.

  (** [try_open_url], factory.py 133-148, and the splitting of [_open_git_mount_source], factory.py 73-89.  All other protocols
      are [Remote]. *)
  Definition parse_url (url : str) : res url_target :=
    match split1_at $"://" url with
    | None => Err RatarmountError
    | Some ([], _) => Err RatarmountError
    | Some (protocol, rest) =>
        if str_eqb protocol $"file" then Ok (LocalPath rest)
        else if str_eqb protocol $"git" then
          let '(repo, remainder) := match split1 ":" rest with Some (a, b) => (Some a, b) | None => (None, rest) end in
          let '(reference, inside) := match split1 "@" remainder with Some (a, b) => (Some a, b) | None => (None, remainder) end in
          Ok (Repository repo reference inside)
        else Ok Remote
    end.

  (** What opening a git:// URL gives: a mount source, or the contents of a file. *)
  Inductive opened := Mounted (g : git) | Contents (data : str).

  (** [_open_git_mount_source], factory.py 91-107, after the splitting, for a repository opened at the reference. *)
  Definition open_inside (g : git) (inside : str) : res opened :=
    match inside with
    | [] => Ok (Mounted g)
    | _ => match git_lookup g inside with
           | Err e => Err e
           | Ok None => Err RatarmountError
           | Ok (Some i) =>
               if is_dir_mode (fi_mode i) then Ok (Mounted (mkGit (g_tree g) inside (g_time g)))
               else match git_open g i with Err e => Err e | Ok data => Ok (Contents data) end
           end
    end.
End Git.
