(** Model of how many layers of archives inside of archives are shown, for TAR archives and compressed files in each other:
    determine_recursion_depth (/repo/core/ratarmountcore/utils.py 331-338), the depths kept by SQLiteIndexedTar
    (/repo/core/ratarmountcore/mountsource/formats/tar.py 560-646, 398-399, 454, 842, 906, 928, 1011) and by AutoMountLayer
    (/repo/core/ratarmountcore/mountsource/compositing/automount.py 49, 68-93, 110-136, 204-237), and when there is such a layer
    (/repo/ratarmount/FuseMount.py 249-250).

    Archives are trees of layers here; what the rows of an index are is modelled in Tar_Model.v and Single_Model.v, the table of mount points
    in Auto_Model.v.  All archives have names by which they are recognized.  Left out: folders inside of archives, formats other than TAR
    and compressed files, mounting on first access, and mount points that are renamed. *)
From Coq Require Import Ascii String.
From Verif Require Import PyBase PyStr.
Local Open Scope Z_scope.

(** A file: of no archive format, a TAR archive with members, or a compressed file with the name and content after decompression. *)
Inductive node := Leaf | Tar (members : list (str * node)) | Comp (name : str) (content : node).

(** The rows of an index with their recursion depth (column 14): files, and folders in place of TAR archives. *)
Inductive item := IFile (depth : Z) (content : node) | IFolder (depth : Z) (entries : list (str * item)).

(** What is to be seen in the mount; [Lost] stands for a fuel that was too small. *)
Inductive shown := File | Folder (entries : list (str * shown)) | Lost.

Definition each {A B} (f : A -> B) (l : list (str * A)) : list (str * B) := map (fun p => (fst p, f (snd p))) l.

Section Depth.
  (** sys.maxsize *)
  Variable maxsize : Z.

  (** determine_recursion_depth, utils.py 331-338 *)
  Definition determine (recursive : bool) (depth : option Z) : Z := match depth with None => if recursive then maxsize else 0 | Some n => n end.

  (** The row of a member at recursion depth [rd], and with it what is made of TAR archives inside: tar.py 454 (mountRecursively), 900-937;
      line 398 is never met there. *)
  Fixpoint index_member (max rd : Z) (a : node) : item :=
    match a with
    | Tar ms => if rd <? max then IFolder (rd + 1) (map (fun p => (fst p, index_member max (rd + 1) (snd p))) ms) else IFile rd a
    | _ => IFile rd a
    end.

  (** SQLiteIndexedTar on a file: the rows of its index, or an error for files that are no TAR archive and not compressed, and for TAR
      archives without any row (tar.py 944-951).  [rd] is self._recursionDepth + 1. *)
  Definition open_tar (recursive : bool) (depth : option Z) (a : node) : res (list (str * item)) :=
    match a with
    | Leaf => Err RatarmountError
    | Tar ms =>
        let max := determine recursive depth in
        let rd := -1 + 1 in
        let rows := if max <? rd then [] else each (index_member max rd) ms in
        match rows with [] => Err RatarmountError | _ => Ok rows end
    | Comp name content =>
        let max := if negb recursive && match depth with None => true | _ => false end then 1 else determine recursive depth in
        let rd := 0 + 1 in
        let rows := match content with
                    | Tar ms => if max <? rd then [] else each (index_member max rd) ms
                    | _ => []
                    end in
        match rows with [] => Ok [(name, IFile (rd - 1) content)] | _ => Ok rows end
    end.

  (** Without further mounting. *)
  Fixpoint plain (i : item) : shown :=
    match i with IFile _ _ => File | IFolder _ l => Folder (map (fun p => (fst p, plain (snd p))) l) end.

  (** AutoMountLayer: for an entry of the mount source mounted at depth [m].  The depth of a path is that of the mount source and of its row,
      plus one (automount.py 110-126); the root of a mount source has a row of depth 0. *)
  Fixpoint automount (max : Z) (recursive : bool) (fuel : nat) (m : Z) (i : item) : shown :=
    match fuel with
    | O => Lost
    | S fuel =>
        match i with
        | IFolder d l => if max <? m + d + 1 then plain i else Folder (each (automount max recursive fuel m) l)
        | IFile d a =>
            let depth := m + d + 1 in
            if max <? depth then File
            else match a with
                 | Leaf => File
                 | _ => match open_tar recursive (Some (Z.max 0 (max - depth))) a with
                        | Err _ => File
                        | Ok l => Folder (if max <? depth + 0 + 1 then each plain l else each (automount max recursive fuel depth) l)
                        end
                 end
        end
    end.

  (** The mount of an archive. *)
  Definition mount (fuel : nat) (recursive : bool) (depth : option Z) (a : node) : res (list (str * shown)) :=
    let max := determine recursive depth in
    bind (open_tar recursive depth a) (fun l =>
    Ok (if 0 <? max then if max <? 0 + 0 + 1 then each plain l else each (automount max recursive fuel 0) l else each plain l)).

  (** Whether --strip-recursive-tar-extension and --transform-recursive-mount-point are said to have no effect, /repo/ratarmount/CLIHelpers.py
      186-192: the depth is given as recursion_depth, which determine_recursion_depth does not look at. *)
  Definition says_no_effect (given recursive : bool) (depth : option Z) : bool := given && (determine recursive None <=? 0).
End Depth.
