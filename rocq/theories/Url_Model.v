(** Model of opening URLs of other machines, core/ratarmountcore/mountsource/factory.py: [_open_sshfs_mount_source], 109-128, and
    [try_open_url], 131-243.  The splitting of file:// and git:// URLs is modelled in Git_Model.v.

    Not modelled: the libraries behind the protocols, which are parameters here: how fsspec takes URLs apart, and what the other
    machine answers.  The special case for ftp with Python before 3.9 only keeps a warning away. *)
From Coq Require Import Ascii String.
From Verif Require Import PyBase PyStr Git_Model.
Local Open Scope Z_scope.

(** The other machine: which fsspec file system, and how it is reached. *)
Inductive server :=
| Ssh (url : str)
| WebDav (transport host : str) (auth : option (str * str))
| Dropbox (token : str)
| General (http : bool) (url : str).

(** What the methods of a file system answer.  [fs_seeks]: seek(1), read(1) and seek(0) do not raise. *)
Record remote := mkRemote { fs_isdir : str -> bool; fs_isfile : str -> bool; fs_exists : str -> bool; fs_mime : str -> option str; fs_seeks : str -> bool }.

(** The installed modules, the environment, and the rest of the world. *)
Record world := mkWorld {
  has_ssh : bool; has_fsspec : bool; has_webdav : bool; has_dropbox : bool;
  environ : str -> option str;
  speaks_https : str -> bool;                  (* check_for_https *)
  ssh_path : str -> str;                       (* fsspec.utils.infer_storage_options(url)['path'] *)
  url_to_fs : str -> bool * str;               (* fsspec.url_to_fs: whether it is a HTTPFileSystem, and the path *)
  answers : server -> remote
}.

(** What is returned: a path or repository on this machine, a mount source, or an opened file with its position. *)
Inductive opened_url := OnDisk (path : str) | OfGit | Folder (s : server) (path : str) | File (s : server) (path : str) (position : Z).

(** [[^...]*], greedy *)
Fixpoint span_not (stop : list ascii) (s : str) : str * str :=
  match s with
  | [] => ([], [])
  | c :: r => if existsb (char_eqb c) stop then ([], s) else let '(a, b) := span_not stop r in (c :: a, b)
  end.

(** The regular expression for WebDAV, factory.py 172.  Its parts are greedy and are followed by a character which they exclude, so
    that going back never helps.  The last part stops at a line feed. *)
Definition newline : ascii := "010"%char.
Definition match_webdav (s : str) : option str * option str * str * str :=
  let '(user, rest) := span_not [":"%char; slash] s in
  let credentials :=
    match rest with
    | ":"%char :: rest =>
        let '(password, rest) := span_not ["@"%char; slash] rest in
        match rest with "@"%char :: rest => Some (user, password, rest) | _ => None end
    | _ => None
    end in
  let '(user, password, rest) := match credentials with Some (u, p, r) => (Some u, Some p, r) | None => (None, None, s) end in
  let '(host, rest) := span_not [slash] rest in
  let '(path, _) := span_not [newline] rest in
  (user, password, host, path).

(** factory.py 179-201: the credentials, the environment and the transport *)
Definition webdav_server (w : world) (rest : str) : server * str :=
  let '(user, password, host, path) := match_webdav rest in
  let user := match user with Some u => Some u | None => environ w $"WEBDAV_USER" end in
  let password := match password with Some p => Some p | None => environ w $"WEBDAV_PASSWORD" end in
  let auth := match user, password with Some u, Some p => Some (u, p) | _, _ => None end in
  (WebDav (if speaks_https w host then $"https" else $"http") host auth, path).

(** factory.py 208-223 *)
Definition dropbox_path (rest : str) : str :=
  let path := match rest with [] => [] | c :: _ => if char_eqb c slash then rest else slash :: rest end in
  rstrip slash path.

(** [_open_sshfs_mount_source], factory.py 109-128 *)
Definition open_ssh (w : world) (url : str) : res opened_url :=
  let path := ssh_path w url in
  let path := match path with c :: r => if char_eqb c slash then r else path | [] => [] end in
  let path := match path with [] => $"." | _ => path end in
  let fs := answers w (Ssh url) in
  if negb (fs_exists fs path) then Err RatarmountError
  else if fs_isfile fs path then Ok (File (Ssh url) path 0) else Ok (Folder (Ssh url) path).

(** factory.py 227-258, for a file system and a path in it *)
Definition open_remote (w : world) (s : server) (path : str) : res opened_url :=
  let fs := answers w s in
  let folder :=
    match s with
    | General true _ => (match fs_mime fs path with Some m => str_eqb m $"text/html" | None => false end) && fs_isdir fs path
    | _ => fs_isdir fs path
    end in
  if folder then Ok (Folder s path)
  else if negb (fs_exists fs path) then Err RatarmountError
  else if fs_seeks fs path then Ok (File s path 0) else Err ValueError.

(** [try_open_url], factory.py 131-256 *)
Definition try_open_url (w : world) (url : str) : res opened_url :=
  match split1_at $"://" url with
  | None => Err RatarmountError
  | Some ([], _) => Err RatarmountError
  | Some (protocol, rest) =>
      if str_eqb protocol $"file" then Ok (OnDisk rest)
      else if str_eqb protocol $"git" then Ok OfGit
      else if has_ssh w && existsb (str_eqb protocol) [$"sftp"; $"ssh"; $"scp"] then open_ssh w url
      else if negb (has_fsspec w) then Err RatarmountError
      else if str_eqb protocol $"webdav" then
        if has_webdav w then let '(s, path) := webdav_server w rest in open_remote w s path else Err RatarmountError
      else if str_eqb protocol $"dropbox" then
        if has_dropbox w then
          match environ w $"DROPBOX_TOKEN" with
          | None | Some [] => Err RatarmountError
          | Some token => open_remote w (Dropbox token) (dropbox_path rest)
          end
        else Err RatarmountError
      else let '(http, path) := url_to_fs w url in open_remote w (General http url) path
  end.
