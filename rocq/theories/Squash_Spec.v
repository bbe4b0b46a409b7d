(** What a SquashFS image contains. *)
From Coq Require Import Ascii String.
From Verif Require Import PyBase PyStr Path_Spec MemFile_Spec Squash_Model.
Local Open Scope Z_scope.

Section Spec.
  Context {A : Type}.
  Variable zero : A.

  (** The file holds [content]: it is cut into blocks of [block_size] bytes, of which blocks of zeros may be left out; what remains after
      the blocks is the fragment. *)
  Definition piece (content : list A) (block_size : Z) (i : nat) : list A := bytes_at content (Z.of_nat i * block_size) block_size.
  Definition stores (file : squash_file A) (block_size : Z) (content : list A) : Prop :=
    sq_size file = Z.of_nat (length content) /\
    (forall i b, nth_error (sq_blocks file) i = Some b ->
       match b with Some d => d = piece content block_size i | None => Forall (eq zero) (piece content block_size i) end) /\
    let n := length (sq_blocks file) in
    match sq_fragment file with
    | Some d => d = piece content block_size n /\ Z.of_nat (length content) <= (Z.of_nat n + 1) * block_size
    | None => Z.of_nat (length content) <= Z.of_nat n * block_size
    end.

  (** The calls of a user of the file object; the answers are collected until something is raised. *)
  Definition whence_of (w : origin) : Z := match w with FromStart => 0 | FromCurrent => 1 | FromEnd => 2 end.
  Fixpoint sq_run (file : squash_file A) (block_size : Z) (st : sq_state A) (cs : list call) : list (answer A) :=
    match cs with
    | [] => []
    | CSeek o w :: cs => match sq_seek zero file block_size st o (whence_of w) with Ok (p, st) => AnsPos p :: sq_run file block_size st cs | Err _ => [AnsRejected] end
    | CRead n :: cs => match sq_read zero file block_size st n with Ok (d, st) => AnsData d :: sq_run file block_size st cs | Err _ => [AnsRejected] end
    | CTell :: cs => AnsPos (sq_tell st) :: sq_run file block_size st cs
    end.
  (** All calls on a fresh file object. *)
  Definition sq_session (file : squash_file A) (block_size : Z) (cs : list call) : list (answer A) :=
    match sq_open zero file block_size with Ok st => sq_run file block_size st cs | Err _ => [AnsRejected] end.

  (** Positions are reported up to the end of the file only. *)
  Definition clip (size : Z) (a : answer A) : answer A := match a with AnsPos p => AnsPos (Z.min p size) | a => a end.

  (** An in-memory file whose reported position lags behind: it is where the last seek went to, up to the end of the file, and reads do not
      move it.  Seeks from the current position start there, while reads go on behind the read before.  A negative position raises. *)
  Fixpoint lagging_run (content : list A) (reported pos : Z) (cs : list call) : list (answer A) :=
    match cs with
    | [] => []
    | CSeek o w :: cs =>
        let t := target content reported o w in let r := Z.min t (Z.of_nat (length content)) in
        if t <? 0 then [AnsRejected] else AnsPos r :: lagging_run content r t cs
    | CRead n :: cs => let '(a, pos) := mem_call content pos (CRead n) in a :: lagging_run content reported pos cs
    | CTell :: cs => AnsPos reported :: lagging_run content reported pos cs
    end.
End Spec.

(** The file that is reached from the root through the given names. *)
Inductive node_at : sq_tree -> location -> sq_inode -> Prop :=
| node_here i entries : node_at (SqTree i entries) [] i
| node_below i entries name c loc j : si_kind i = SqDirectory -> In (name, c) entries -> node_at c loc j -> node_at (SqTree i entries) (name :: loc) j.
(** Every directory has proper, distinct names; references to inodes have 32 and 16 bits. *)
Inductive image : sq_tree -> Prop :=
| an_image i entries : 0 <= si_start i < 4294967296 -> 0 <= si_offset i < 65536 -> NoDup (map fst entries) ->
    (forall name c, In (name, c) entries -> proper_name name /\ image c) -> image (SqTree i entries).
(** The mode that is stored holds permissions, with or without the bits of the file type. *)
Definition type_of (i : sq_inode) : Z := match si_kind i with SqDirectory => 4 | SqSymlink => 10 | _ => 8 end.
Definition plain_mode (i : sq_inode) : Prop := si_kind i <> SqOther /\ (si_mode i / 4096 = 0 \/ si_mode i / 4096 = type_of i).
