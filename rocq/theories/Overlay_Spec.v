(** Specification for the write overlay: what a user expects of a writable mount. *)
From Coq Require Import Ascii String.
From Verif Require Import PyBase PyStr Path_Spec Overlay_Model.

(** [q] is the folder [p] or something below it. *)
Definition at_or_below (p q : location) : Prop := exists rest, q = p ++ rest.

(** A tree of archives: what is listed is what exists, and whatever exists lies in folders. *)
Definition tree_like {N} (dir : N) (lookup : location -> option N) (names : location -> list str) : Prop :=
  (forall p n, In n (names p) <-> lookup (p ++ [n]) <> None) /\
  (forall p n, lookup (p ++ [n]) <> None -> p = [] \/ lookup p = Some dir).

Section Bytes.
  Context {A : Type}.
  Variable zero : A.

  (** [c'] is the file [c] after writing [data] at [offset]: the written range holds the data, the rest is as before and
      a gap behind the old end reads as zeros. *)
  Definition after_write (c : list A) (offset : nat) (data c' : list A) : Prop :=
    length c' = (match data with [] => length c | _ => max (length c) (offset + length data) end) /\
    forall k, k < length c' ->
      nth_error c' k =
        if (offset <=? k) && (k <? offset + length data) then nth_error data (k - offset)
        else if k <? length c then nth_error c k
        else Some zero.

  (** [c'] is the file [c] after setting its length to [n]. *)
  Definition after_truncate (c : list A) (n : nat) (c' : list A) : Prop :=
    length c' = n /\
    forall k, k < n -> nth_error c' k = if k <? length c then nth_error c k else Some zero.
End Bytes.

(** ** Which paths a system call is about *)
Section Calls.
  Context {A : Type}.

  (** Two names of one file of the overlay folder (hard links). *)
  Definition same_file (st : @ostate A) (p q : location) : Prop :=
    exists i, oget (o_fs st) p = Some (OFile i) /\ oget (o_fs st) q = Some (OFile i).

  (** The paths a call is allowed to change: the path it names; with writing and truncating also other names of the same
      file; with renaming everything below both paths. *)
  Definition may_change (st : @ostate A) (o : @op A) (q : location) : Prop :=
    match o with
    | OpCreate p _ | OpTruncate p _ => q = p \/ same_file st p q
    | OpMkdir p _ | OpMknod p | OpSymlink p _ | OpLink p _ | OpUnlink p | OpRmdir p => q = p
    | OpRename a b => at_or_below a q \/ at_or_below b q \/ same_file st b q
    | OpOpenWrite _ => False
    | OpWrite i _ _ => oget (o_fs st) q = Some (OFile i)
    | OpAttributes _ _ => False
    end.

  (** Calls that can bring a path into being: those that name it as what is to be created, and renaming something to it or
      to a folder above it. *)
  Definition may_create (o : @op A) (q : location) : Prop :=
    match o with
    | OpCreate p _ | OpMkdir p _ | OpMknod p | OpSymlink p _ | OpLink p _ => q = p
    | OpRename _ b => at_or_below b q
    | _ => False
    end.
End Calls.
