(** Model of core/ratarmountcore/mountsource/compositing/versioning.py: the .versions folders and hard links. *)
From Coq Require Import Ascii String.
From Verif Require Import PyBase PyDict PyStr PyInt FileInfo Union_Model.
Local Open Scope Z_scope.

Definition dot_versions : str := $".versions".

(** [s[: -n]] *)
Definition drop_end (n : nat) (s : str) : str := firstn (length s - n) s.

Section Model.
  Context {U : Type}.
  (** The underlying mount source, and the mount point that its get_mount_source reports for a FileInfo. *)
  Variable m : source U.
  Variable mount_point : finfo U -> str.

  (** State of the loop in _decode_versions_path_api: filePath, pathIsSpecialVersionsFolder, fileVersion. *)
  Record dstate := mkD { d_path : str; d_special : bool; d_version : option Z }.

  (** The loop body, versioning.py:61-87.  [None]: the method returns None. *)
  Definition decode_step (st : dstate) (part : str) : option dstate :=
    if d_special st then
      match py_int part with
      | Some v => if str_eqb (py_str v) part then Some (mkD (d_path st) false (Some v)) else None
      | None => None
      end
    else
      let tmp := d_path st ++ slash :: part in
      match s_lookup m tmp 0 with
      | Some _ => Some (mkD tmp false (Some 0))
      | None =>
        if ends_with dot_versions part && (length dot_versions <? length part)%nat
        then Some (mkD (drop_end (length dot_versions) tmp) true (Some 0))
        else None
      end.

  Fixpoint decode_parts (st : dstate) (parts : list str) : option dstate :=
    match parts with
    | [] => Some st
    | p :: r => match decode_step st p with Some st' => decode_parts st' r | None => None end
    end.

  (** _decode_versions_path_api, versioning.py:32-92. *)
  Definition decode (path : str) : option (str * bool * Z) :=
    match decode_parts (mkD [] false None) (split slash (lstrip slash path)) with
    | Some st => match d_version st with
                 | Some v => Some (d_path st, d_special st, if d_special st then 0 else v)
                 | None => None
                 end
    | None => None
    end.

  (** _is_hard_link, versioning.py:94-98. *)
  Definition is_hard_link (i : finfo U) : bool :=
    negb (is_reg_mode (fi_mode i)) && negb (is_lnk_mode (fi_mode i)) && negb (str_eqb (fi_linkname i) []).

  (** The target of a hard link in the coordinates of the mount source, versioning.py:108, 116-118. *)
  Definition link_target (i : finfo U) : str := path_join (mount_point i) (lstrip slash (slash :: lstrip slash (fi_linkname i))).

  (** The loop of _resolve_hard_links, versioning.py:112-146; [limit] is 128 minus hardLinkCount. *)
  Fixpoint resolve_loop (limit : nat) (path : str) (version : Z) (i : finfo U) : option (finfo U) :=
    match limit with
    | O => Some i
    | S limit =>
      if is_hard_link i then
        let target := link_target i in
        let version := if str_eqb target path then (if 0 <=? version then version + 1 else version - 1) else 0 in
        match s_lookup m target version with
        | None => None
        | Some i' => resolve_loop limit target version i'
        end
      else Some i
    end.

  (** _resolve_hard_links, versioning.py:100-146. *)
  Definition resolve_hard_links (path : str) : option (finfo U) :=
    match s_lookup m path 0 with
    | None => None
    | Some i => resolve_loop 128 path 0 i
    end.

  (** FileVersionLayer.lookup, versioning.py:190-229.  The FileType appended to the userdata is the constructor. *)
  Inductive vinfo := VersionOf (i : finfo U) | VersionsFolder (mtime uid gid : Z).
  Definition v_lookup (path : str) : res (option vinfo) :=
    match resolve_hard_links path with
    | Some i => Ok (Some (VersionOf i))
    | None =>
      match decode path with
      | None => Ok None
      | Some (path', special, v) =>
        if special then
          match s_lookup m path' 0 with
          | Some i => Ok (Some (VersionsFolder (fi_mtime i) (fi_uid i) (fi_gid i)))
          | None => Err AssertionError
          end
        else Ok (option_map VersionOf (s_lookup m path' v))
      end
    end.

  (** FileVersionLayer.list and list_mode, versioning.py:152-188, for [list_function] [m.list] or [m.list_mode]. *)
  Definition v_list {V} (list_function : str -> listing V) (path : str) : listing V :=
    match list_function path with
    | LNone =>
      match decode path with
      | None => LNone
      | Some (path', special, _) =>
        if special then LNames (map (fun k => py_str (Z.of_nat k + 1)) (seq 0 (s_versions m path')))
        else list_function path'
      end
    | files => files
    end.
End Model.
Arguments vinfo : clear implicits.
