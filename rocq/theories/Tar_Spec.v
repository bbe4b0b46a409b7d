(** Specification of TAR archives: the layout of the members, and nesting. *)
From Coq Require Import Ascii String.
From Verif Require Import PyBase PyStr Path_Spec FileInfo Strip_Model Index_Model Index_Spec Tar_Model.
Local Open Scope Z_scope.

(** [tarball bs l]: the blocks [bs] hold, one after the other, the members [l] (block number of the header, member, data blocks),
    and then end with a zero block or with the file. *)
Inductive tarball : list block -> list (nat * member * list block) -> Prop :=
| tar_end bs : (bs = [] \/ exists rest, bs = Zero :: rest) -> tarball bs []
| tar_member m ext body rest l :
    length ext = m_extra m -> length body = m_blocks m -> tarball rest l ->
    tarball (Head m :: ext ++ body ++ rest)
            ((0%nat, m, body) :: map (fun '(pos, m', b) => ((1 + m_extra m + m_blocks m + pos)%nat, m', b)) l).

(** [n] blocks of an archive from byte [offset] on. *)
Definition blocks_at (archive : list block) (offset : Z) (n : nat) : list block :=
  firstn n (skipn (Z.to_nat (offset / 512)) archive).

(** A row describes a member whose header is at byte [header] of the archive, and which is seen below the folder [prefix]. *)
Definition describes (transform : str -> str) (archive : list block) (prefix : str) (header : Z) (m : member) (body : list block)
    (r : row) : Prop :=
  full_path r = written (denotes (transform (prefix ++ $"/" ++ m_name m ++ (if isdir m then $"/" else [])))) /\
  ~ In slash (r_name r) /\
  r_offsetheader r = header /\ r_size r = m_size m /\ r_mtime r = m_mtime m /\ r_linkname r = m_link m /\
  r_uid r = m_uid m /\ r_gid r = m_gid m /\ r_issparse r = m_sparse m /\
  blocks_at archive (r_offset r) (length body) = body.

(** A regular file whose name ends in ".tar", in upper or lower case. *)
Definition named_tar (m : member) : Prop :=
  In (m_type m) ["0"; "000"; "7"; "S"]%char /\ exists stem ext, m_name m = stem ++ ext /\ map lower ext = $".tar".

(** Where a nested archive is mounted: at its own path, without the suffix if so configured, transformed if so configured. *)
Definition mounted_at (transform : str -> str) (strip : bool) (remount : option (str -> str)) (prefix : str) (m : member) (at_ : str)
  : Prop :=
  let path := written (denotes (transform (prefix ++ $"/" ++ m_name m))) in
  exists stripped,
    (stripped = path /\ (strip = true -> forall ext, map lower ext = $".tar" -> forall stem, path <> stem ++ ext) \/
     strip = true /\ exists ext, map lower ext = $".tar" /\ path = stripped ++ ext) /\
    match remount with None => at_ = stripped | Some f => at_ = slash :: lstrip slash (f stripped) end.

(** [holds levels prefix start bs prefix' header m body]: the archive [bs], whose first byte is byte [start] of the outermost
    archive and whose members are seen below [prefix], holds at one of [levels] levels of nesting the member [m], which is seen
    below [prefix'] and has its header at byte [header] of the outermost archive. *)
Inductive holds (mounted : str -> member -> str -> Prop) :
  nat -> str -> Z -> list block -> str -> Z -> member -> list block -> Prop :=
| holds_here levels prefix start bs l pos m body : tarball bs l -> In (pos, m, body) l ->
    holds mounted (S levels) prefix start bs prefix (start + 512 * Z.of_nat pos) m body
| holds_nested levels prefix start bs l pos m body at_ prefix' header m' body' : tarball bs l -> In (pos, m, body) l ->
    named_tar m -> m_size m = 512 * Z.of_nat (length body) -> mounted prefix m at_ ->
    holds mounted (S levels) at_ (start + 512 * Z.of_nat (pos + 1 + m_extra m)) body prefix' header m' body' ->
    holds mounted (S (S levels)) prefix start bs prefix' header m' body'.

(** The additional folder row of an entry of type 'D' (folder in a GNU incremental archive). *)
Definition incremental_row (prefix : str) (transform : str -> str) (pos : nat) (m : member) (r : row) : Prop :=
  m_type m = "D"%char /\ full_path r = written (denotes (transform (prefix ++ $"/" ++ m_name m))) /\
  r_offsetheader r = 512 * Z.of_nat pos + 1 /\ r_size r = 0 /\ r_mode r = Z.lor (m_mode m) S_IFDIR.

(** The file type bits (S_IFMT) that a TAR type flag stands for (POSIX ustar, GNU tar). *)
Definition type_bits (c : ascii) : option Z :=
  match c with
  | "0" | "000" | "7" | "S" => Some 32768   (* regular file *)
  | "2" => Some 40960                       (* symbolic link *)
  | "3" => Some 8192                        (* character device *)
  | "4" => Some 24576                       (* block device *)
  | "5" => Some 16384                       (* folder *)
  | "6" => Some 4096                        (* FIFO *)
  | _ => None
  end%char.
