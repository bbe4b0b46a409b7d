(** How the calls and answers of the in-memory file (MemFile_Spec.v) read as calls and answers of the modelled
    [RawStenciledFile], and the specification of the deviating behaviour after a rejected seek. *)
From Verif Require Import PyBase Stencil_Model MemFile_Spec.
Local Open Scope Z_scope.

Definition to_whence (w : origin) : whence :=
  match w with FromStart => SEEK_SET | FromCurrent => SEEK_CUR | FromEnd => SEEK_END end.

Definition to_op (c : call) : op :=
  match c with CSeek o w => Seek o (to_whence w) | CRead n => Read n | CTell => Tell end.

(** Any exception counts as "rejected". *)
Definition to_answer {A} (o : out A) : answer A :=
  match o with OPos p => AnsPos p | OData d => AnsData d | OErr _ => AnsRejected end.

(** What the code does instead of [mem_call] when a seek goes before the start: the seek is rejected but the position
    becomes negative, and every read of a non-zero number of bytes is rejected until a seek to a valid position. *)
Definition actual_call {A} (content : list A) (pos : Z) (c : call) : answer A * Z :=
  match c with
  | CSeek o w => let t := target content pos o w in
                 ((if t <? 0 then AnsRejected else AnsPos t), t)
  | CRead n => if pos <? 0 then ((if n =? 0 then AnsData [] else AnsRejected), pos)
               else let d := if n <? 0 then skipn (Z.to_nat pos) content else bytes_at content pos n in
                    (AnsData d, pos + Z.of_nat (length d))
  | CTell => (AnsPos pos, pos)
  end.

Fixpoint actual_run {A} (content : list A) (pos : Z) (cs : list call) : list (answer A) :=
  match cs with
  | [] => []
  | c :: r => let '(a, pos') := actual_call content pos c in a :: actual_run content pos' r
  end.
