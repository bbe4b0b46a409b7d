(** Model of how the mount layers hand a FileInfo down: the userdata stack of open, read, list_xattr, get_xattr and
    get_mount_source in mountsource/compositing/{union,versioning,subvolumes,automount,removeprefix}.py. *)
From Coq Require Import Ascii String.
From Verif Require Import PyBase PyDict PyStr Path_Model Union_Model.

(** Entries of FileInfo.userdata (MountSource.py:23-27) and the layers.  A union stores the mount source itself
    (union.py:131,141), the version layer a FileType (versioning.py:12-14), the subvolumes and automount layers a mount
    point or None (subvolumes.py:138, 17; automount.py:303), the innermost sources anything.
    [LSub]: SubvolumesMountSource with its root dictionary, in which [None] is a nested dictionary (subvolumes.py:16).
    [LAuto]: AutoMountLayer with its dictionary of mount points (automount.py:65-67).
    [LPrefix]: RemovePrefixMountSource. *)
Inductive layer :=
| LLeaf (id : nat)
| LUnion
| LVersion (inner : layer)
| LSub (table : list (str * option layer))
| LAuto (mounted : list (str * layer))
| LPrefix (id : nat) (inner : layer).
Inductive value :=
| VLayer (l : layer)
| VFile | VVersionsFolder
| VName (name : option str)
| VOther (n : nat).

Inductive op := OpOpen (buffering : Z) | OpRead (size offset : Z) | OpListXattr | OpGetXattr (key : str).

Section Model.
  (** What opening or reading returns: a file object, bytes, attribute names, or an attribute value. *)
  Variable payload : Type.
  Variable no_attributes no_value : payload.
  (** The innermost sources: their answer depends on the operation and the remaining userdata; they do not modify it. *)
  Variable leaf : nat -> op -> list value -> res payload.
  (** [fileInfo == self._directory_info] (removeprefix.py:66) and [fileInfo == self.mounted[mountPoint].rootFileInfo]
      (automount.py:383). *)
  Variable is_directory_info : nat -> list value -> bool.
  Variable is_root_info : list (str * layer) -> list value -> bool.

  (** FileInfo objects are mutable and shared: a heap of userdata lists, addressed by position.  The lists are kept in
      reverse: [append] and [pop] work at the head.  The other fields of a FileInfo are never assigned by the layers. *)
  Definition heap := list (list value).
  Definition cell (h : heap) (r : nat) : list value := nth r h [].
  Fixpoint set_cell (h : heap) (r : nat) (s : list value) : heap :=
    match h, r with
    | [], _ => []
    | _ :: t, O => s :: t
    | x :: t, S r' => x :: set_cell t r' s
    end.
  (** [fileInfo.clone()], MountSource.py:30-35 *)
  Definition clone (h : heap) (r : nat) : nat * heap := (length h, h ++ [cell h r]).

  (** get_mount_source of each class: MountSource.py:104-109 (default), union.py:228-238, versioning.py:256-263,
      subvolumes.py:209-219, automount.py:400-409, removeprefix.py:77-80.  [fuel] bounds the recursion like Python's
      recursion limit does. *)
  Fixpoint get_ms (fuel : nat) (l : layer) (h : heap) (r : nat) : res (str * layer * nat) * heap :=
    match fuel with
    | O => (Err RuntimeError, h)
    | S fuel =>
      match l with
      | LLeaf _ => (Ok ($"/", l, r), h)
      | LUnion =>
        let '(c, h1) := clone h r in
        match cell h1 c with
        | [] => (Err IndexError, h1)
        | v :: s =>
          let h2 := set_cell h1 c s in
          match v with
          | VLayer l' => get_ms fuel l' h2 c
          | _ => (Ok ($"/", l, r), h2)
          end
        end
      | LVersion inner =>
        match cell h r with
        | [] => (Err IndexError, h)
        | v :: s =>
          let h1 := set_cell h r s in
          let '(x, h2) := match v with
                          | VVersionsFolder => (Ok ($"/", l, r), h1)
                          | _ => get_ms fuel inner h1 r
                          end in
          (x, set_cell h2 r (v :: cell h2 r))
        end
      | LSub table =>
        let '(c, h1) := clone h r in
        match cell h1 c with
        | [] => (Err IndexError, h1)
        | v :: s =>
          let h2 := set_cell h1 c s in
          match v with
          | VName (Some n) =>
            match dget str_eqb table n with
            | None => (Ok ($"/", l, r), h2)
            | Some None => (Err AttributeError, h2)
            | Some (Some l') =>
              let '(x, h3) := get_ms fuel l' h2 c in
              (bind x (fun '(p, l2, r2) => Ok (posix_normpath (slash :: n ++ slash :: p), l2, r2)), h3)
            end
          | _ => (Ok ($"/", l, r), h2)
          end
        end
      | LAuto mounted =>
        match cell h r with
        | [] => (Err IndexError, h)
        | VName (Some n) :: _ =>
          match dget str_eqb mounted n with
          | None => (Err KeyError, h)
          | Some l' =>
            let '(c, h1) := clone h r in
            let h2 := set_cell h1 c (tl (cell h1 c)) in
            let '(x, h3) := get_ms fuel l' h2 c in
            (bind x (fun '(p, l2, r2) => Ok (path_join n (lstrip slash p), l2, r2)), h3)
          end
        | _ :: _ => (Err AssertionError, h)
        end
      | LPrefix id inner =>
        if is_directory_info id (cell h r) then (Ok ($"/", l, r), h) else get_ms fuel inner h r
      end
    end.

  (** open, read, list_xattr and get_xattr: union.py:194-226, versioning.py:236-253, 266-283, subvolumes.py:174-207,
      automount.py:370-397, removeprefix.py:65-74, 83-92.  [try ... finally: append] is the final [set_cell]. *)
  Fixpoint exec (fuel : nat) (o : op) (l : layer) (h : heap) (r : nat) : res payload * heap :=
    match fuel with
    | O => (Err RuntimeError, h)
    | S fuel =>
      match l with
      | LLeaf id => (leaf id o (cell h r), h)
      | LUnion =>
        match cell h r with
        | [] => (Err IndexError, h)
        | v :: s =>
          let h1 := set_cell h r s in
          let '(x, h2) := match v with
                          | VLayer l' => exec fuel o l' h1 r
                          | _ => (match o with
                                  | OpListXattr => Ok no_attributes
                                  | OpGetXattr _ => Ok no_value
                                  | _ => Err AssertionError end, h1)
                          end in
          (x, set_cell h2 r (v :: cell h2 r))
        end
      | LVersion inner =>
        match cell h r with
        | [] => (Err IndexError, h)
        | v :: s =>
          let h1 := set_cell h r s in
          let '(x, h2) :=
            match o with
            | OpOpen _ | OpRead _ _ =>
              match v with VFile => exec fuel o inner h1 r | _ => (Err FileNotFound, h1) end
            | OpListXattr => match v with VVersionsFolder => (Ok no_attributes, h1) | _ => exec fuel o inner h1 r end
            | OpGetXattr _ => match v with VVersionsFolder => (Ok no_value, h1) | _ => exec fuel o inner h1 r end
            end in
          (x, set_cell h2 r (v :: cell h2 r))
        end
      | LSub table =>
        match cell h r with
        | [] => (Err IndexError, h)
        | v :: s =>
          let h1 := set_cell h r s in
          let forward n :=
            match dget str_eqb table n with
            | None => (Err KeyError, h1)
            | Some None => (Err AttributeError, h1)
            | Some (Some l') => exec fuel o l' h1 r
            end in
          match o, v with
          | OpOpen _, VName None | OpRead _ _, VName None => (Err ValueError, h1)   (* raised before the try block *)
          | _, _ =>
            let '(x, h2) := match v with
                            | VName (Some n) => forward n
                            | VName None => match o with OpListXattr => (Ok no_attributes, h1) | _ => (Ok no_value, h1) end
                            | _ => (Err KeyError, h1)
                            end in
            (x, set_cell h2 r (v :: cell h2 r))
          end
        end
      | LAuto mounted =>
        let via_mount_source :=
          let '(x, h1) := get_ms fuel l h r in
          match x with
          | Err e => (Err e, h1)
          | Ok (_, l', r') => exec fuel o l' h1 r'
          end in
        match o with
        | OpOpen _ | OpRead _ _ => via_mount_source
        | _ =>
          match cell h r with
          | [] => (Err IndexError, h)
          | VName (Some n) :: _ =>
            match dget str_eqb mounted n with
            | None => (Err KeyError, h)
            | Some _ =>
              if is_root_info mounted (cell h r)
              then (Ok (match o with OpListXattr => no_attributes | _ => no_value end), h)
              else via_mount_source
            end
          | _ :: _ => (Err AssertionError, h)
          end
        end
      | LPrefix id inner =>
        if is_directory_info id (cell h r) then
          (match o with
           | OpListXattr => Ok no_attributes
           | OpGetXattr _ => Ok no_value
           | _ => Err FileNotFound end, h)
        else exec fuel o inner h r
      end
    end.
End Model.
