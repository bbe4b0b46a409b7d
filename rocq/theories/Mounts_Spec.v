(** Specification for setting up and taking down a mount. *)
From Coq Require Import Ascii String.
From Verif Require Import PyBase PyDict PyStr Path_Spec FileInfo Union_Model Overlay_Model Overlay_Spec Mounts_Model.

Section Spec.
  Context {U : Type}.

  (** The source has no version of the path. *)
  Definition lacks (s : source U) (loc : location) : Prop := s_lookup s (written loc) 0 = None /\ s_versions s (written loc) = 0.

  (** An input that is not simply ignored: it exists, or it is a URL. *)
  Definition given (realpath : str -> location) (fs : folders) (x : str) : Prop :=
    fget fs (realpath x) <> None \/ exists a b, x = a ++ $"://" ++ b.

  (** Where the write overlay lies. *)
  Definition overlay_at (realpath : str -> location) (temporary : location) (overlay : str) (p : location) : Prop :=
    (overlay = $":temp:" /\ p = temporary) \/ (overlay <> [] /\ overlay <> $":temp:" /\ p = realpath overlay).

  (** os.path.realpath yields canonical paths of real folders. *)
  Definition resolves (realpath : str -> location) (temporary : location) : Prop :=
    (forall x, realpath (written (realpath x)) = realpath x) /\ realpath (written temporary) = temporary.
End Spec.

(** Folder tables are trees: what exists lies in a folder. *)
Definition in_folders (fs : folders) : Prop := forall p n, fget fs (p ++ [n]) <> None -> fget fs p = Some KDir.

(** ** The control folder *)
Definition control_folder : location := [$".ratarmount-control"].
Definition in_control (p : location) : Prop := exists n r, p = control_folder ++ n :: r.

(** The path that a call creates, changes or removes; renaming has two of them, and writing goes through a handle. *)
Definition subject {A} (o : @op A) (p : location) : Prop :=
  match o with
  | OpCreate q _ | OpMkdir q _ | OpMknod q | OpSymlink q _ | OpLink q _ | OpUnlink q | OpRmdir q
  | OpTruncate q _ | OpOpenWrite q | OpAttributes q _ => p = q
  | OpRename a b => p = a \/ p = b
  | OpWrite _ _ _ => False
  end.

(** A renaming that has to do with the control folder: from or to a path in it, it itself, or the root. *)
Definition renames_control {A} (o : @op A) : Prop :=
  match o with
  | OpRename a b => exists p, (p = a \/ p = b) /\ (at_or_below control_folder p \/ p = [])
  | _ => False
  end.

(** ** What a mount leaves behind *)
Section Trace.
  Variable realpath : str -> location.

  (** Folders and files the user asked for: the named overlay folder, the log file, and the folders above them. *)
  Definition asked_for (q : request) (x : location) : Prop :=
    (q_overlay q <> [] /\ q_overlay q <> $":temp:" /\ at_or_below x (realpath (q_overlay q))) \/
    (q_log q <> [] /\ at_or_below x (realpath (q_log q))).

  (** A fresh temporary folder: not there yet, in an existing folder, and none of the paths leads into it. *)
  Definition fresh_temporary (fs : folders) (q : request) (t : location) : Prop :=
    t <> [] /\ fget fs t = None /\ fget fs (removelast t) = Some KDir /\
    ~ at_or_below t (realpath (q_point q)) /\ ~ at_or_below t (realpath (q_overlay q)) /\ ~ at_or_below t (realpath (q_log q)).

  (** While the mount is there, things happen inside the overlay folder only. *)
  Definition busy_overlay (t : location) (q : request) (fs fs' : folders) : Prop :=
    forall x, fget fs' x = fget fs x \/ exists p, overlay_at realpath t (q_overlay q) p /\ at_or_below p x /\ x <> p.
End Trace.
