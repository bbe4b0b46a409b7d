(** Model of the FAT mount source: /repo/core/ratarmountcore/mountsource/formats/fat.py and the search in
    /repo/core/ratarmountcore/_external/pyfatfs/FATDirectoryEntry.py.  Paths and names are lists of code points. *)
From Verif Require Import PyBase FileInfo Fat_Model FatDir_Model.
Local Open Scope Z_scope.

(** path.split("/"), and "filter(None, ...)" *)
Fixpoint psplit (p : list Z) : list (list Z) :=
  match p with
  | [] => [[]]
  | c :: r => if c =? 47 then [] :: psplit r else match psplit r with [] => [[c]] | s :: ss => (c :: s) :: ss end
  end.
Definition nonempty (s : list Z) : bool := match s with [] => false | _ => true end.
Definition name_eqb (a b : list Z) : bool := if list_eq_dec Z.eq_dec a b then true else false.
Fixpoint pjoin (l : list (list Z)) : list Z := match l with [] => [] | [s] => s | s :: r => s ++ 47 :: pjoin r end.
(** posixpath.normpath (Lib/posixpath.py) *)
Definition dot : list Z := [46].
Definition dotdot : list Z := [46; 46].
Definition norm_step (slashes : nat) (comps : list (list Z)) (c : list Z) : list (list Z) :=
  if negb (nonempty c) || name_eqb c dot then comps
  else if negb (name_eqb c dotdot) || ((slashes =? 0)%nat && match comps with [] => true | _ => false end)
          || match rev comps with l :: _ => name_eqb l dotdot | [] => false end then comps ++ [c]
  else match comps with [] => comps | _ => removelast comps end.
Definition pnorm (p : list Z) : list Z :=
  match p with
  | [] => dot
  | _ =>
    let slashes := match p with 47 :: 47 :: 47 :: _ => 1%nat | 47 :: 47 :: _ => 2%nat | 47 :: _ => 1%nat | _ => 0%nat end in
    let result := repeat 47 slashes ++ pjoin (fold_left (norm_step slashes) (psplit p) []) in
    match result with [] => dot | _ => result end
  end.

Section Source.
  Variable oem : Z -> Z.
  Variable is_space : Z -> bool.
  Variable image : list Z.
  (** the open file system, PyFat.py 163-193, and a bound for the length of cluster chains.  The entries of a directory are read at the first use and
      kept; as the image does not change they are read at every use here. *)
  Variable v : volume.
  Variable table : list Z.
  Variable fuel : nat.

  (** a FATDirectoryEntry: the root directory, PyFat.py 398-417, or an entry that was read *)
  Inductive node := Root | Entry (d : dentry).
  Definition node_is_directory (n : node) : bool := match n with Root => true | Entry d => is_directory d end.
  (** is_special, FATDirectoryEntry.py 337-343 *)
  Definition is_special (d : dentry) : bool := name_eqb (short_name oem is_space d) dot || name_eqb (short_name oem is_space d) dotdot.
  (** _get_entries_raw, FATDirectoryEntry.py 409-424; ENOTDIR is 20 *)
  Definition entries_raw (n : node) : res (list dentry) :=
    if node_is_directory n then
      match n with
      | Root => root_entries image v table fuel
      | Entry d => parse_in_chain image v table fuel (Some (get_cluster d)) [] []
      end
    else Err (OSErr 20).
  (** get_entries, FATDirectoryEntry.py 426-448, without the special ones *)
  Definition get_entries (n : node) : res (list dentry * list dentry) :=
    match entries_raw n with
    | Err e => Err e
    | Ok ds =>
      let ds := filter (fun d => negb (is_special d || is_volume_id d)) ds in
      Ok (filter is_directory ds, filter (fun d => negb (is_directory d)) ds)
    end.
  (** the loop of _search_entry, FATDirectoryEntry.py 450-468; ENOENT is 2 *)
  Fixpoint search (name : list Z) (ds : list dentry) : res dentry :=
    match ds with
    | [] => Err (OSErr 2)
    | d :: ds =>
      match long_name d with
      | Some (Err e) => Err e
      | Some (Ok n) => if name_eqb n name then Ok d else if name_eqb (short_name oem is_space d) name then Ok d else search name ds
      | None => if name_eqb (short_name oem is_space d) name then Ok d else search name ds
      end
    end.
  Definition search_entry (n : node) (name : list Z) : res dentry :=
    match get_entries n with Err e => Err e | Ok (dirs, files) => search name (dirs ++ files) end.
  (** get_entry, FATDirectoryEntry.py 470-481 *)
  Fixpoint walk (n : node) (names : list (list Z)) : res node :=
    match names with
    | [] => Ok n
    | name :: names =>
      if node_is_directory n then match search_entry n name with Err e => Err e | Ok d => walk (Entry d) names end
      else Err (OSErr 20)
    end.
  Definition get_entry (path : list Z) : res node := walk Root (filter nonempty (psplit path)).

  (** FATMountSource.exists, fat.py 86-94 *)
  Definition fat_exists (path : list Z) : res bool :=
    match get_entry path with
    | Ok _ => Ok true
    | Err (OSErr 2) => Ok false
    | Err e => Err e
    end.
  (** _list and list, fat.py 96-108 *)
  Fixpoint shown_names (ds : list dentry) : res (list (list Z)) :=
    match ds with
    | [] => Ok []
    | d :: ds => match shown_name oem is_space d with
                 | Err e => Err e
                 | Ok n => match shown_names ds with Err e => Err e | Ok ns => Ok (n :: ns) end
                 end
    end.
  Definition fat_list (path : list Z) : res (option (list (list Z))) :=
    match (match get_entry (pnorm path) with Err e => Err e | Ok n => get_entries n end) with
    | Err (OSErr 2) | Err (OSErr 20) => Ok None
    | Err e => Err e
    | Ok (dirs, files) => match shown_names (dirs ++ files) with Err e => Err e | Ok ns => Ok (Some ns) end
    end.
  (** _convert_fatdirectory_entry_to_file_info, fat.py 62-79.  [timestamp] is datetime.timestamp, in the local time zone *)
  Variable timestamp : (Z * Z * Z) * (Z * Z * Z) -> Z.
  Variable uid gid : Z.
  Definition info_of (n : node) (path : list Z) : finfo (list Z) :=
    let mode := Z.lor 511 (if node_is_directory n then S_IFDIR else S_IFREG) in
    match n with
    | Root => mkInfo 0 (timestamp (deserialize_date 0, deserialize_time 0)) mode [] uid gid [path]
    | Entry d => mkInfo (d_size d) (timestamp (get_mtime d)) mode [] uid gid [path]
    end.
  (** lookup, fat.py 110-118 *)
  Definition fat_lookup (path : list Z) : res (option (finfo (list Z))) :=
    match get_entry path with
    | Err (OSErr 2) | Err (OSErr 20) => Ok None
    | Err e => Err e
    | Ok n => Ok (Some (info_of n path))
    end.
  (** open, fat.py 124-129, and the constructor of FatIO, FatIO.py 40-55: the first cluster and the size of the file object.  EISDIR is 21. *)
  Definition fat_open_path (info : finfo (list Z)) : res (Z * Z) :=
    match rev (fi_userdata info) with
    | [] => Err IndexError
    | path :: _ =>
      match get_entry path with
      | Err e => Err e
      | Ok Root => Err (OSErr 21)
      | Ok (Entry d) => if is_directory d || is_special d then Err (OSErr 21) else if is_volume_id d then Err FileNotFound else Ok (get_cluster d, d_size d)
      end
    end.
End Source.
