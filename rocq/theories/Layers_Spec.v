(** Specification: which innermost source a FileInfo belongs to, and what it means that FileInfos stay unchanged. *)
From Coq Require Import Ascii String.
From Verif Require Import PyBase PyDict PyStr Layers_Model.

(** All FileInfo objects that existed before still have the same userdata. *)
Definition unchanged (h h' : heap) : Prop :=
  (length h <= length h')%nat /\ forall r, (r < length h)%nat -> cell h' r = cell h r.

Section Spec.
  Variable is_directory_info : nat -> list value -> bool.
  (** [belongs l s l' s']: a FileInfo with the userdata [s] (most recent first) handed to the layer [l] belongs to the
      innermost source [l'], for which the userdata [s'] remains. *)
  Inductive belongs : layer -> list value -> layer -> list value -> Prop :=
  | BLeaf i s : belongs (LLeaf i) s (LLeaf i) s
  | BUnion l s l' s' : belongs l s l' s' -> belongs LUnion (VLayer l :: s) l' s'
  | BVersion inner s l' s' : belongs inner s l' s' -> belongs (LVersion inner) (VFile :: s) l' s'
  | BSub table n l s l' s' : dget str_eqb table n = Some (Some l) -> belongs l s l' s' -> belongs (LSub table) (VName (Some n) :: s) l' s'
  | BAuto mounted n l s l' s' : dget str_eqb mounted n = Some l -> belongs l s l' s' -> belongs (LAuto mounted) (VName (Some n) :: s) l' s'
  | BPrefix id inner s l' s' : is_directory_info id s = false -> belongs inner s l' s' -> belongs (LPrefix id inner) s l' s'.
End Spec.
