(** Specification of the seek point data in the index (C101, C102). *)
From Coq Require Import List ZArith Bool.
From Verif Require Import PyBase Seek_Model.
Import ListNotations.

Section Spec.
  Context {A : Type}.

  (** The formats whose seek points are bytes exported by the decoder, and those for which they are pairs of offsets. *)
  Definition exported_format (c : compression) : Prop := c = Gzip \/ c = Zlib.
  Definition block_format (c : compression) : Prop := c = Bzip2 \/ c = Zstandard.

  (** Use number [m] of the index comes before use number [n], and the data was not dropped in between. *)
  Definition before (es : list (event A)) (m n : nat) : Prop :=
    (m < n)%nat /\ forall j, (m < j < n)%nat -> nth_error es j <> Some (Clear None).

  (** The process did not die in this use, and if exporting failed, then with an exception that decoders are known to raise, and
      indexed_gzip is installed. *)
  Definition uninterrupted (e : event A) : Prop :=
    match e with
    | Mount zran _ _ d cut =>
        cut = None /\ (d_fails d = None \/ zran = true /\ In (d_fails d) [Some RuntimeError; Some ValueError; Some RatarmountError])
    | Clear cut => cut = None
    end.
End Spec.
