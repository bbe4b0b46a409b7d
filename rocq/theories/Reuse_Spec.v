(** Specification for the reuse of indexes: what happened to the archive, told from the history alone. *)
From Coq Require Import Ascii String.
From Verif Require Import PyBase PyStr Reuse_Model.

Section Spec.
  Context {A G R : Type}.
  Notation event := (event A G).
  Notation file := (file A).

  (** The archive after a history that began with [f]. *)
  Fixpoint archive_after (f : file) (h : list event) : file :=
    match h with [] => f | Change _ _ f' :: r => archive_after f' r | Mount _ _ _ :: r => archive_after f r end.

  (** All states of the archive during a history. *)
  Fixpoint archives (f : file) (h : list event) : list file :=
    match h with [] => [f] | Change _ _ f' :: r => f :: archives f' r | Mount _ _ _ :: r => archives f r end.

  Definition mounts_only (h : list event) : Prop := forall e, In e h -> exists o, e = Mount A G o.

  Definition every_mount (P : options G -> Prop) (h : list event) : Prop := forall o, In (Mount A G o) h -> P o.
End Spec.
