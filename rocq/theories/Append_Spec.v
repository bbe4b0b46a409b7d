(** Specification for archives that change after they were indexed. *)
From Coq Require Import Ascii String.
From Verif Require Import PyBase PyStr Path_Spec FileInfo Strip_Model Index_Model Index_Spec Tar_Model Tar_Spec.
Local Open Scope Z_scope.

(** The data of a member takes the least number of 512-byte blocks for its size, and it is not sparse. *)
Definition plain_data (m : member) : Prop :=
  m_sparse m = false /\ 0 <= m_size m /\ 512 * (Z.of_nat (m_blocks m) - 1) < m_size m <= 512 * Z.of_nat (m_blocks m).

(** The bytes of an archive. *)
Definition bytes (archive : list block) : Z := 512 * Z.of_nat (length archive).

(** The header that [r] was made of is still at its place in the archive. *)
Definition header_at (transform : str -> str) (archive : list block) (r : row) : Prop :=
  exists pos m folder, r_offsetheader r = 512 * Z.of_nat pos /\ nth_error archive pos = Some (Head m) /\
    folder ++ slash :: r_name r = written (denotes (transform ($"/" ++ m_name m ++ (if isdir m then $"/" else [])))) /\
    r_offset r = 512 * Z.of_nat (pos + 1 + m_extra m) /\ r_size r = m_size m /\ r_mtime r = m_mtime m /\ r_linkname r = m_link m /\
    r_uid r = m_uid m /\ r_gid r = m_gid m /\ r_issparse r = m_sparse m /\ r_type r = Z.of_nat (nat_of_ascii (m_type m)).

(** A regular file; and [r] is one of the [n] regular files of the table that are first, or last, in the archive: at most [n] of them,
    [r] included, have their data at or before, or at or after, the data of [r]. *)
Definition regular_file (r : row) : Prop := Z.land (r_mode r) 61440 = 32768.
Definition regular_files (table : list row) : list row := filter (fun r => Z.land (r_mode r) 61440 =? 32768) table.
Definition among_first (n : nat) (table : list row) (r : row) : Prop :=
  In r (regular_files table) /\ (length (filter (fun x => r_offset x <=? r_offset r)%Z (regular_files table)) <= n)%nat.
Definition among_last (n : nat) (table : list row) (r : row) : Prop :=
  In r (regular_files table) /\ (length (filter (fun x => r_offset r <=? r_offset x)%Z (regular_files table)) <= n)%nat.

(** The 1024 zero bytes that end a TAR archive are at byte [offset]. *)
Definition end_marker_at (archive : list block) (offset : Z) : Prop :=
  exists pos, offset / 512 = Z.of_nat pos /\ nth_error archive pos = Some Zero /\ nth_error archive (S pos) = Some Zero.
