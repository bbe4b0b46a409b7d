(** Specification: the bytes of an archive with given members. *)
From Verif Require Import PyBase.

(** The bytes of an archive with these members. *)
Definition archive_of (members : list (list nat)) : list nat := flat_map (fun m => length m :: m) members.
