(** The files in a PDF document. *)
From Coq Require Import Ascii String.
From Verif Require Import PyBase PyStr Pdf_Model.
Local Open Scope Z_scope.

Section Spec.
  Context {A : Type}.

  (** Streams attached to the document or to one of its pages. *)
  Definition attached (d : @document A) (name : str) (r : pref) : Prop :=
    In (name, r) (d_embedded d) \/ exists p, In p (d_pages d) /\ In (name, r) (pg_annots p).

  (** The image with index [i] on page [n], and the text of page [n]. *)
  Definition image_of (d : @document A) (n i : nat) (data : list A) : Prop :=
    exists p name, nth_error (d_pages d) n = Some p /\ nth_error (pg_images p) i = Some (name, data).
  Definition text_of (d : @document A) (n : nat) (data : list A) : Prop :=
    exists p, nth_error (d_pages d) n = Some p /\ pg_text p = data.

  (** The cross reference table has one position for every object, and no two objects at the same position; objects that are
      attached lie behind the start of the file. *)
  Definition xref_proper (d : @document A) : Prop :=
    NoDup (map fst (d_xref d)) /\ NoDup (map snd (d_xref d)) /\
    forall name r o, attached d name r -> In (r, o) (d_xref d) -> 0 < o.
End Spec.
