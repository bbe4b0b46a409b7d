(** Model of core/ratarmountcore/mountsource/compositing/automount.py: archives inside archives are mounted recursively. *)
From Coq Require Import Ascii String.
From Verif Require Import PyBase PyDict PyStr Path_Model FileInfo Union_Model.
Local Open Scope Z_scope.

Section Model.
  Context {U : Type}.

  (** MountInfo, automount.py:36-41. *)
  Record minfo := mkM { mi_source : source U; mi_root : finfo U; mi_depth : Z }.
  (** self.mounted: mount points with leading and without trailing slash, automount.py:58-67. *)
  Definition mtable := list (str * minfo).
  Notation mget := (dget str_eqb).

  (** _simply_find_mounted, automount.py:94-108.  The loop shortens [left]; [fuel] is its length. *)
  Fixpoint find_loop (fuel : nat) (t : mtable) (path left : str) (right : list str) : str * str :=
    match fuel with
    | O => ($"/", path)
    | S fuel =>
      match rsplit1 slash left with
      | None => ($"/", path)
      | Some (l, r) => if dmem str_eqb t left then (left, slash :: join $"/" right) else find_loop fuel t path l (r :: right)
      end
    end.
  Definition simply_find (t : mtable) (path : str) : str * str := find_loop (S (length path)) t path path [].

  (** self.mounted[mountPoint]; the root is always mounted, so the default is never used (see Auto_Proofs). *)
  Variable default : minfo.
  Definition at_mount (t : mtable) (mp : str) : minfo := match mget t mp with Some i => i | None => default end.

  (** External: the sum of the recursion depths stored in the userdata by the TAR backend (automount.py:118-122). *)
  Variable userdata_depth : finfo U -> Z.
  (** get_recursion_depth, automount.py:110-126. *)
  Definition recursion_depth (t : mtable) (path : str) : Z :=
    let '(mp, rest) := simply_find t path in
    let i := at_mount t mp in
    mi_depth i + match s_lookup (mi_source i) rest 0 with Some f => userdata_depth f + 1 | None => 0 end.

  (** Configuration and external functions: the suffix rules, the mount point for a path (automount.py:145-152), the permissions of a folder
      made from a file, and the whole attempt to open the archive at a path ([open_nested parent path rest f depth]: the whole path, the path inside
      the parent source and what is there), with the checks for already
      indexed TARs, for split files, and for failures (automount.py:166-229). *)
  Variable max_depth : Z.
  Variable lazy strip_extension : bool.
  Variable transform : bool.
  Variable strip_suffix : str -> str.
  Variable mount_name : str -> str.
  Variable folder_mode : Z -> Z.
  Variable open_nested : source U -> str -> str -> finfo U -> Z -> option (source U).
  Variable name_data : str -> U.

  (** _try_to_mount_file, automount.py:128-244.  The result is the new table and the mount point. *)
  Definition try_mount (t : mtable) (path : str) : mtable * option str :=
    let depth := recursion_depth t path in
    if max_depth <? depth then (t, None)
    else if str_eqb (strip_suffix path) path then (t, None)
    else
      let mp := mount_name path in
      if dmem str_eqb t mp then (t, None)
      else
        let '(parent, rest) := simply_find t path in
        let p := mi_source (at_mount t parent) in
        match s_lookup p rest 0 with
        | None => (t, None)
        | Some f =>
          match open_nested p path rest f depth with
          | None => (t, None)
          | Some s =>
            let root := mkInfo (fi_size f) (fi_mtime f) (folder_mode (fi_mode f)) [] (fi_uid f) (fi_gid f) [name_data mp] in
            (dset str_eqb t mp (mkM s root depth), Some mp)
          end
        end.

  (** The lazy mounting in _find_mounted, automount.py:254-264. *)
  Fixpoint mount_along (t : mtable) (sub : str) (parts : list str) : mtable :=
    match parts with
    | [] => t
    | p :: r =>
      let sub := path_join sub p in
      if max_depth <? recursion_depth t sub then t
      else mount_along (if dmem str_eqb t sub then t else fst (try_mount t sub)) sub r
    end.
  Definition prepare (t : mtable) (path : str) : mtable :=
    if negb (max_depth =? 0) && lazy then mount_along t $"/" (split slash (lstrip slash path)) else t.

  (** versions, automount.py:361-367, for the table after lazy mounting. *)
  Definition a_versions (t : mtable) (path : str) : nat :=
    let '(mp, rest) := simply_find t path in
    let n := s_versions (mi_source (at_mount t mp)) rest in
    if negb (str_eqb mp $"/") && str_eqb rest $"/" then (n + s_versions (mi_source (at_mount t $"/")) path)%nat else n.

  (** normalize_file_version, automount.py:289-290. *)
  Definition normalize_version (version versions : Z) : Z :=
    if 1 <? versions then ((version - 1) mod versions + 1) mod versions else version.

  (** lookup, automount.py:272-310.  [t] is the table after its call of _find_mounted, [versions] what self.versions(path) returns.
      The mount point appended to the userdata is the first component of the result. *)
  Definition a_lookup_with (t : mtable) (path : str) (version versions : Z) : option (str * finfo U) :=
    let '(mp, rest) := simply_find t path in
    let i := at_mount t mp in
    let original := if negb (str_eqb mp $"/") && str_eqb rest $"/" then Z.of_nat (s_versions (mi_source (at_mount t $"/")) path) else 0 in
    let v := normalize_version version versions in
    if (v =? 0) && str_eqb rest $"/" then Some (mp, mi_root i)
    else if (versions <=? 1) || negb (str_eqb rest $"/") || (v =? 0) || (original <? v)
         then option_map (pair mp) (s_lookup (mi_source i) rest (v - original))
         else option_map (pair $"/") (s_lookup (mi_source (at_mount t $"/")) path (v mod original)).
  Definition a_lookup (t : mtable) (path : str) (version : Z) : option (str * finfo U) :=
    a_lookup_with t path version (Z.of_nat (a_versions t path)).

  (** os.path.split (Lib/posixpath.py). *)
  Definition path_split (p : str) : str * str :=
    match rsplit1 slash p with
    | None => ([], p)
    | Some (a, n) => let head := a ++ $"/" in (if str_eqb (rstrip slash head) [] then head else rstrip slash head, n)
    end.

  (** _append_mount_points, automount.py:312-345, for values V made from a mount. *)
  Definition append_mount_points {V} (value : minfo -> V) (t : mtable) (path : str) (files : listing V) : listing V :=
    let here '(mp, i) := let '(folder, name) := path_split mp in str_eqb folder path && negb (str_eqb name []) in
    let name (e : str * minfo) := snd (path_split (fst e)) in
    match files with
    | LNone | LNames [] | LDict [] => LNone
    | LNames ns => if strip_extension || transform then LNames (ns ++ map name (filter here t)) else LNames ns
    | LDict d => LDict (dupdate str_eqb d (map (fun e => (name e, value (snd e))) (filter here t)))
    end.
  (** list and list_mode, automount.py:347-359, for the table after lazy mounting; the executable bit is only set in modes. *)
  Definition a_list (t : mtable) (path : str) : listing (finfo U) :=
    let '(mp, rest) := simply_find t path in append_mount_points mi_root t path (s_list (mi_source (at_mount t mp)) rest).
  Definition a_list_mode (t : mtable) (path : str) : listing Z :=
    let '(mp, rest) := simply_find t path in append_mount_points (fun i => Z.lor (fi_mode (mi_root i)) 64) t path (s_list_mode (mi_source (at_mount t mp)) rest).

  (** The calls with lazy mounting: the answer and the new table.  lookup calls versions, which calls _find_mounted again. *)
  Definition call_lookup (t : mtable) (path : str) (v : Z) : mtable * option (str * finfo U) :=
    let t1 := prepare t path in let t2 := prepare t1 path in (t2, a_lookup_with t1 path v (Z.of_nat (a_versions t2 path))).
  Definition call_versions (t : mtable) (path : str) : mtable * nat := let t1 := prepare t path in (t1, a_versions t1 path).
  Definition call_list (t : mtable) (path : str) : mtable * listing (finfo U) := let t1 := prepare t path in (t1, a_list t1 path).

  (** The constructor: the root, and the walk over all folders without lazy mounting, automount.py:55-92.  [is_dir] is MountSource.is_dir
      (MountSource.py:114-116); [fuel] bounds the number of rounds of the while loop. *)
  Definition is_dir (t : mtable) (path : str) : bool := match a_lookup t path 0 with Some (_, f) => is_dir_mode (fi_mode f) | None => false end.
  Definition walk_file (folder : str) (acc : mtable * list str) (name : str) : mtable * list str :=
    let '(t, next) := acc in
    let p := path_join folder name in
    if is_dir t p then (t, next ++ [p])
    else match try_mount t p with (t', Some mp) => (t', next ++ [mp]) | (t', None) => (t', next) end.
  Definition walk_folder (acc : mtable * list str) (folder : str) : mtable * list str :=
    let '(t, next) := acc in
    if max_depth <? recursion_depth t folder then acc
    else fold_left (walk_file folder) (names_of (a_list t folder)) acc.
  Fixpoint walk (fuel : nat) (t : mtable) (folders : list str) : mtable :=
    match fuel, folders with
    | _, [] => t
    | O, _ => t
    | S fuel, _ => let '(t', next) := fold_left walk_folder folders (t, []) in walk fuel t' next
    end.
End Model.
Arguments minfo : clear implicits.
Arguments mtable : clear implicits.
