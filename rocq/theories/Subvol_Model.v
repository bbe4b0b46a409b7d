(** Model of core/ratarmountcore/mountsource/compositing/subvolumes.py: mount sources mounted at paths, dynamically. *)
From Coq Require Import Ascii String.
From Verif Require Import PyBase PyDict PyStr Path_Model FileInfo Union_Model.
Local Open Scope Z_scope.

Section Model.
  Context {S : Type}.

  (** self.mountSources: recursive dictionaries with mount sources as leaves, subvolumes.py:16. *)
  Inductive node := Mounted (s : S) | Folder (d : list (str * node)).

  (** What a call of _get_by_path ends with: the object reached, None, or the RatarmountError. *)
  Inductive reached A := Reached (a : A) | Missing | Blocked.

  (** _get_by_path, subvolumes.py:22-35.  [use] is what the caller does with the returned object: it may modify the dictionary in place,
      so it returns its new state.  The result contains the new state of the whole tree. *)
  Fixpoint get_by_path {A} (create : bool) (use : node -> node * A) (parts : list str) (n : node) : node * reached A :=
    match parts with
    | [] => let '(n', a) := use n in (n', Reached _ a)
    | p :: r =>
      if str_eqb p [] then get_by_path create use r n
      else
        match n with
        | Mounted _ => (n, Blocked _)
        | Folder d =>
          match dget str_eqb d p with
          | None => if create then let '(c, a) := get_by_path create use r (Folder []) in (Folder (dset str_eqb d p c), a) else (n, Missing _)
          | Some c => let '(c', a) := get_by_path create use r c in (Folder (dset str_eqb d p c'), a)
          end
        end
    end.
  Definition parts_of (path : str) : list str := split slash (strip slash path).

  (** The parsing of mount points, subvolumes.py:39, 50: ('/' + normpath('/' + path).strip('/')).rsplit('/', maxsplit=1). *)
  Definition parent_and_name (path : str) : str * str :=
    match rsplit1 slash (slash :: strip slash (posix_normpath (slash :: path))) with Some pn => pn | None => ([], []) end.

  (** is_mountable, subvolumes.py:37-44.  It creates the parent folders. *)
  Definition is_mountable (path : str) (root : node) : node * bool :=
    let '(parent, name) := parent_and_name path in
    let '(root', r) := get_by_path true (fun n => (n, match n with Folder d => negb (dmem str_eqb d name) | Mounted _ => false end)) (parts_of parent) root in
    (root', match r with Reached _ free => negb (str_eqb name []) && free | Missing _ => false | Blocked _ => false end).

  (** mount, subvolumes.py:46-62. *)
  Definition mount (path : str) (target : S) (root : node) : node * res bool :=
    let '(parent, name) := parent_and_name path in
    if str_eqb name [] then (root, Err RatarmountError)
    else
      let use n := match n with
                   | Mounted _ => (n, false)
                   | Folder d => if dmem str_eqb d name then (n, false) else (Folder (dset str_eqb d name (Mounted target)), true)
                   end in
      let '(root', r) := get_by_path true use (parts_of parent) root in
      (root', match r with Reached _ true => Ok true | Reached _ false => Err RatarmountError | Missing _ => Err RatarmountError | Blocked _ => Ok false end).

  (** unmount, subvolumes.py:64-101.  The loops down the parents and back up again are one recursion: the result contains the removed mount
      source and what is left of the folder, None if it became empty and is removed from its parent. *)
  Fixpoint unmount_at (parts : list str) (n : node) : option (S * option node) :=
    match parts with
    | [] => match n with Mounted s => Some (s, None) | Folder _ => None end
    | p :: r =>
      if str_eqb p [] then unmount_at r n
      else
        match n with
        | Mounted _ => None
        | Folder d =>
          match dget str_eqb d p with
          | None => None
          | Some c =>
            match unmount_at r c with
            | None => None
            | Some (s, Some c') => Some (s, Some (Folder (dset str_eqb d p c')))
            | Some (s, None) => Some (s, match ddel str_eqb d p with [] => None | d' => Some (Folder d') end)
            end
          end
        end
    end.
  Definition unmount (path : str) (root : node) : node * option S :=
    match unmount_at (parts_of (strip slash (posix_normpath (slash :: path)))) root with
    | None => (root, None)
    | Some (s, Some root') => (root', Some s)
    | Some (s, None) => (Folder [], Some s)
    end.

  (** _find_mount_source, subvolumes.py:103-120.  [before] is parts[:i]. *)
  Inductive target := AtMount (mount_point subpath : str) (s : S) | AtFolder (d : list (str * node)).
  Fixpoint find_loop (before parts : list str) (d : list (str * node)) : option target :=
    match parts with
    | [] => Some (AtFolder d)
    | p :: r =>
      if str_eqb p [] then find_loop (before ++ [p]) r d
      else
        match dget str_eqb d p with
        | None => None
        | Some (Mounted s) => Some (AtMount (join $"/" (before ++ [p])) (slash :: join $"/" r) s)
        | Some (Folder d') => find_loop (before ++ [p]) r d'
        end
    end.
  Definition find_mount_source (path : str) (root : node) : option target :=
    match root with Folder d => find_loop [] (parts_of path) d | Mounted _ => None end.

  (** The constructor mounts the given sources, subvolumes.py:12-20. *)
  Definition empty : node := Folder [].

  (** Where open and read forward a FileInfo with this entry in its userdata, subvolumes.py:174-191. *)
  Definition open_target (subvolume : option str) (root : node) : res S :=
    match subvolume, root with
    | Some n, Folder d => match dget str_eqb d n with None => Err KeyError | Some (Folder _) => Err AttributeError | Some (Mounted s) => Ok s end
    | _, _ => Err ValueError
    end.
End Model.
Arguments node : clear implicits.
Arguments target : clear implicits.

Section Queries.
  Context {U : Type}.
  (** The FileInfo of folders is that of the root with [None] as userdata; others get the mount point appended, subvolumes.py:127-140. *)
  Inductive sub_info := FolderInfo | Inside (subvolume : str) (i : finfo U).
  Definition sv_lookup (path : str) (v : Z) (root : node (source U)) : option sub_info :=
    match find_mount_source path root with
    | None => None
    | Some (AtFolder _) => Some FolderInfo
    | Some (AtMount subvolume subpath s) => option_map (Inside subvolume) (s_lookup s subpath v)
    end.
  (** versions, subvolumes.py:142-152. *)
  Definition sv_versions (path : str) (root : node (source U)) : nat :=
    match find_mount_source path root with
    | None => O
    | Some (AtFolder _) => 1%nat
    | Some (AtMount _ subpath s) => s_versions s subpath
    end.
  (** _list, subvolumes.py:154-163: a folder has its keys, a mounted source answers itself. *)
  Definition sv_list (path : str) (root : node (source U)) : option (list str + listing (finfo U)) :=
    match find_mount_source path root with
    | None => None
    | Some (AtFolder d) => Some (inl (dkeys d))
    | Some (AtMount _ subpath s) => Some (inr (s_list s subpath))
    end.
End Queries.
Arguments sub_info : clear implicits.
