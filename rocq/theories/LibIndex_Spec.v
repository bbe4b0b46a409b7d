(** Specification of the entries of an archive that is read with libarchive. *)
From Coq Require Import Ascii String.
From Verif Require Import PyBase PyStr Path_Spec LibIndex_Model.
Local Open Scope Z_scope.

Section Spec.
  Context {A : Type}.
  Variable transform : str -> str.

  (** Where the entry number [count] is seen.  A file that is only compressed is one entry with the name [raw]. *)
  Definition seen_at (raw : option str) (count : nat) (e : entry A) : location :=
    denotes (transform (match count, raw with O, Some (c :: name) => c :: name | _, _ => e_path e end)).

  (** Entry number [count] is the newest one at location [loc]. *)
  Definition newest (raw : option str) (entries : list (entry A)) (count : nat) (e : entry A) (loc : location) : Prop :=
    nth_error entries count = Some e /\ seen_at raw count e = loc /\
    forall later e', (count < later)%nat -> nth_error entries later = Some e' -> seen_at raw later e' <> loc.

  (** Nothing is below location [loc]. *)
  Definition nothing_below (raw : option str) (entries : list (entry A)) (loc : location) : Prop :=
    forall count e rest, nth_error entries count = Some e -> rest <> [] -> seen_at raw count e <> loc ++ rest.

  (** The library reports the right size, or none. *)
  Definition honest_size (e : entry A) : Prop := e_size e = None \/ e_size e = Some (Z.of_nat (length (e_data e))).
End Spec.
