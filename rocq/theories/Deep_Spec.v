(** A TAR archive that holds further TAR archives, and the places of their members in the mounted tree. *)
From Coq Require Import Ascii String.
From Verif Require Import PyBase PyStr Path_Spec Tar_Model Tar_Spec TarRead_Spec.
Local Open Scope Z_scope.

(** Data that is no TAR archive, though the file is named like one: it is empty or does not begin with a header. *)
Definition no_archive (bs : list block) : Prop := bs = [] \/ exists c rest, bs = Other c :: rest.

(** [sound levels bs]: [bs] is an archive, and everything in it that is named like an archive, down to the given level of nesting, is an
    archive or no archive at all, but not a damaged one. *)
Inductive sound : nat -> list block -> Prop :=
| sound_none bs : sound 0 bs
| sound_tar levels bs l : tarball bs l ->
    (forall pos m body, In (pos, m, body) l -> named_tar m -> levels <> 0%nat ->
       m_size m = 512 * Z.of_nat (length body) /\ sound levels body \/ fits m body /\ no_archive body) ->
    sound (S levels) bs.

Section Places.
  Variable transform : str -> str.
  Variable strip : bool.
  Variable remount : option (str -> str).
  Variable levels : nat.
  Variable archive : list block.

  (** The member with its header at byte [header] is somewhere in the archive, and is seen below the folder [prefix]. *)
  Definition member_of (prefix : str) (header : Z) (m : member) (body : list block) : Prop :=
    holds (mounted_at transform strip remount) levels [] 0 archive prefix header m body.

  (** A nested archive, not at the last level, is mounted at [at_]. *)
  Definition mount_at (at_ : str) : Prop :=
    exists prefix header m body, holds (mounted_at transform strip remount) (Nat.pred levels) [] 0 archive prefix header m body /\
      named_tar m /\ mounted_at transform strip remount prefix m at_.

  (** The mount points are paths without empty names, "." and "..". *)
  Definition clean_mounts : Prop := forall at_, mount_at at_ -> at_ = written (denotes at_).

  (** At [loc], the member with the header at byte [header] is the last one of the outermost archive, nothing is below it, and no archive
      is mounted there. *)
  Definition last_there (loc : location) (header : Z) : Prop :=
    (forall prefix header' m body, member_of prefix header' m body -> location_of transform prefix m = loc -> header' <= header) /\
    (forall prefix header' m body rest, member_of prefix header' m body -> rest <> [] -> location_of transform prefix m <> loc ++ rest) /\
    (forall at_ rest, mount_at at_ -> denotes at_ <> loc ++ rest).

  (** The archive with the header at byte [header], seen below [prefix], is the last thing at its mount point [at_]. *)
  Definition last_mount (at_ : str) (prefix : str) (header : Z) : Prop :=
    (forall prefix' header' m body, member_of prefix' header' m body -> location_of transform prefix' m = denotes at_ ->
       header' < header \/ header' = header /\ prefix' = prefix) /\
    (forall prefix' header' m body, holds (mounted_at transform strip remount) (Nat.pred levels) [] 0 archive prefix' header' m body ->
       named_tar m -> mounted_at transform strip remount prefix' m at_ -> header' < header \/ header' = header /\ prefix' = prefix).

  (** A member or a mount point is at [loc]. *)
  Definition present (loc : location) : Prop :=
    (exists prefix header m body, member_of prefix header m body /\ location_of transform prefix m = loc) \/
    (exists at_, mount_at at_ /\ denotes at_ = loc).
End Places.
