(** Model of ext4 images: [EXT4MountSource], /repo/core/ratarmountcore/mountsource/formats/ext4.py 15-27 and 56-122.  The ext4 module is
    a parameter: inodes, the table of inodes, the entries of folders and [inode_at].  i_mode is a number here: the test for an attribute
    [value] only unwraps enumerations. *)
From Coq Require Import Ascii String.
From Verif Require Import PyBase PyDict PyStr FileInfo.
Local Open Scope Z_scope.

(** An inode of the ext4 module.  [i_folder]: it is an ext4.inode.Directory, with the entries that opendir yields (byte names and inode
    numbers).  [i_data]: what open() gives, or the exception it raises. *)
Record inode := mkInode {
  i_no : Z; i_size : Z; i_mtime : Z; i_mode : Z; i_uid : Z; i_gid : Z;
  i_folder : option (list (list Z * Z)); i_data : res (list Z) }.

Section Ext.
  Variable inode_at : str -> res inode.
  Variable inodes : Z -> res inode.
  Variable decode : list Z -> res str.

  (** [_convert_ext4_directory_entry_to_file_info], ext4.py 56-68 *)
  Definition ext_info (n : inode) : finfo Z := mkInfo (i_size n) (i_mtime n) (i_mode n) [] (i_uid n) (i_gid n) [i_no n].

  (** [exists], ext4.py 74-80 *)
  Definition ext_exists (path : str) : res bool :=
    match inode_at path with Ok _ => Ok true | Err FileNotFound => Ok false | Err e => Err e end.

  (** The comprehension of [_list], ext4.py 91-95: entries from left to right, later ones replace earlier ones of the same name. *)
  Definition dots (n : list Z) : bool := match n with [46] => true | [46; 46] => true | _ => false end.
  Fixpoint ext_entries {V} (value : inode -> V) (entries : list (list Z * Z)) (d : list (str * V)) : res (list (str * V)) :=
    match entries with
    | [] => Ok d
    | (n, no) :: r =>
        if dots n then ext_entries value r d
        else match decode n with
             | Err e => Err e
             | Ok name => match inodes no with
                          | Err e => Err e
                          | Ok i => ext_entries value r (dset str_eqb d name (value i))
                          end
             end
    end.

  (** [_list], ext4.py 82-95 *)
  Definition ext_list_with {V} (value : inode -> V) (path : str) : res (option (list (str * V))) :=
    match inode_at path with
    | Err FileNotFound => Ok None
    | Err e => Err e
    | Ok n => match i_folder n with
              | None => Ok None
              | Some entries => match ext_entries value entries [] with Ok d => Ok (Some d) | Err e => Err e end
              end
    end.

  (** [list] and [list_mode], ext4.py 97-103 *)
  Definition ext_list := ext_list_with ext_info.
  Definition ext_list_mode := ext_list_with i_mode.

  (** [lookup], ext4.py 105-111 *)
  Definition ext_lookup (path : str) (version : Z) : res (option (finfo Z)) :=
    match inode_at path with Ok n => Ok (Some (ext_info n)) | Err FileNotFound => Ok None | Err e => Err e end.

  (** [versions], ext4.py 113-115 *)
  Definition ext_versions (path : str) : Z := 1.

  (** [open], ext4.py 117-121 *)
  Definition ext_open (i : finfo Z) : res (list Z) :=
    match rev (fi_userdata i) with
    | [] => Err IndexError
    | no :: _ => match inodes no with Ok n => i_data n | Err e => Err e end
    end.
End Ext.

(** [is_ext4_image], ext4.py 15-27: [volume] tells whether ext4.Volume accepts the file, and where it leaves the position. *)
Definition is_ext4_image (installed : bool) (volume : Z -> bool * Z) (position : Z) : bool * Z :=
  if installed then (fst (volume position), position) else (false, position).
