(** Specification for file handles. *)
From Coq Require Import Ascii String.
From Verif Require Import PyBase PyStr Path_Spec Overlay_Model Overlay_Spec Fuse_Model.

Section Spec.
  Context {A : Type}.

  (** The handles given out in the answers to a history. *)
  Definition handles (l : list (res (@answer A))) : list nat :=
    flat_map (fun a => match a with Ok (RHandle n) => [n] | _ => [] end) l.

  (** Which file a path leads to: a file of the overlay folder, else a member of the archive. *)
  Inductive place := InFolder (i : nat) | InArchive (content : list A).

  Definition place_of (lower : location -> option (@lnode A)) (has_overlay : bool) (o : @ostate A) (p : location) : option place :=
    match has_overlay, oget (o_fs o) p, lower p with
    | true, Some (OFile i), _ => Some (InFolder i)
    | true, Some _, _ => None
    | _, _, Some (LFile c) => Some (InArchive c)
    | _, _, _ => None
    end.

  (** What is in that file at a later time. *)
  Definition content_at (o : @ostate A) (x : place) : list A :=
    match x with InFolder i => content_of o i | InArchive c => c end.

  (** A history that does not release the handle. *)
  Definition keeps (fh : nat) (h : list (@call A)) : Prop := ~ In (FRelease fh) h.

  (** A history that does not write through the handle. *)
  Definition not_written (fh : nat) (h : list (@call A)) : Prop := forall p d o, ~ In (FWrite p d o fh) h.
End Spec.
