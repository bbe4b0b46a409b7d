(** Specification: an in-memory file is a byte string and a position.  Independent of any model. *)
From Verif Require Import PyBase.
Local Open Scope Z_scope.

Section Spec.
  Context {A : Type}.

  Inductive origin := FromStart | FromCurrent | FromEnd.
  Inductive call := CSeek (o : Z) (w : origin) | CRead (n : Z) | CTell.
  Inductive answer := AnsPos (p : Z) | AnsData (d : list A) | AnsRejected.

  (** The bytes [o, o+n) of the content, clipped to its end. *)
  Definition bytes_at (content : list A) (o n : Z) : list A := firstn (Z.to_nat n) (skipn (Z.to_nat o) content).

  Definition target (content : list A) (pos o : Z) (w : origin) : Z :=
    match w with
    | FromStart => o
    | FromCurrent => pos + o
    | FromEnd => Z.of_nat (length content) + o
    end.

  (** [read(-1)] reads up to the end; positions beyond the end are allowed; a negative position is rejected and
      nothing changes. *)
  Definition mem_call (content : list A) (pos : Z) (c : call) : answer * Z :=
    match c with
    | CSeek o w => let t := target content pos o w in
                   if t <? 0 then (AnsRejected, pos) else (AnsPos t, t)
    | CRead n => let d := if n <? 0 then skipn (Z.to_nat pos) content else bytes_at content pos n in
                 (AnsData d, pos + Z.of_nat (length d))
    | CTell => (AnsPos pos, pos)
    end.

  Fixpoint mem_run (content : list A) (pos : Z) (cs : list call) : list answer :=
    match cs with
    | [] => []
    | c :: r => let '(a, pos') := mem_call content pos c in a :: mem_run content pos' r
    end.

  (** A history in which no seek goes before the start. *)
  Fixpoint no_negative_seek (content : list A) (pos : Z) (cs : list call) : Prop :=
    match cs with
    | [] => True
    | c :: r =>
        match c with CSeek o w => 0 <= target content pos o w | _ => True end /\
        no_negative_seek content (snd (mem_call content pos c)) r
    end.

  (** Reads with a size the API documents: -1 or not negative. *)
  Definition documented (c : call) : Prop := match c with CRead n => -1 <= n | _ => True end.

  (** The joined content of cut-outs (file, offset, size). *)
  Definition joined (content_of : nat -> list A) (cuts : list (nat * Z * Z)) : list A :=
    concat (map (fun '(f, o, n) => bytes_at (content_of f) o n) cuts).

  Definition inside (content_of : nat -> list A) (c : nat * Z * Z) : Prop :=
    let '(f, o, n) := c in 0 <= o /\ 0 <= n /\ o + n <= Z.of_nat (length (content_of f)).
End Spec.
Arguments answer : clear implicits.
