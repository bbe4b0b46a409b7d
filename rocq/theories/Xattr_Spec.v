(** Specification of extended attributes. *)
From Coq Require Import Ascii String.
From Verif Require Import PyBase PyStr FileInfo Index_Model.
Local Open Scope Z_scope.

(** The last value written for an entry (given by its header offset) and key. *)
Fixpoint last_value {V} (history : list (Z * str * V)) (oh : Z) (key : str) : option V :=
  match history with
  | [] => None
  | (o, k, v) :: rest =>
    match last_value rest oh key with
    | Some w => Some w
    | None => if (o =? oh) && str_eqb k key then Some v else None
    end
  end.

(** The file belongs to the entry at header offset [oh] and is no generated folder. *)
Definition entry_at (info : finfo tar_data) (oh : Z) : Prop :=
  exists below ud, fi_userdata info = below ++ [ud] /\ u_offsetheader ud = oh /\ u_isgenerated ud = false.
