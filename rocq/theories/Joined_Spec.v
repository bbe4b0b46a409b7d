(** Specification of a file that may return less than requested (a Python "raw" file) over a given content. *)
From Verif Require Import PyBase Stencil_Model MemFile_Spec Stencil_Spec.
Local Open Scope Z_scope.

Section Spec.
  Context {A : Type}.

  (** The answer to a read of [n] bytes (or of everything for a negative [n]) at position [pos] is a prefix of the
      requested range, empty only if the requested range is empty. *)
  Definition short_read (content : list A) (pos n : Z) (d : list A) : Prop :=
    let wanted := if n <? 0 then skipn (Z.to_nat pos) content else bytes_at content pos n in
    (exists rest, wanted = d ++ rest) /\ (d = [] -> wanted = []).

  (** Positions before the start are clamped to the start, like io.BytesIO does for relative seeks. *)
  Inductive raw_run (content : list A) : Z -> list call -> list (answer A) -> Prop :=
  | raw_nil pos : raw_run content pos [] []
  | raw_seek pos o w cs ans :
      let t := Z.max (target content pos o w) 0 in
      raw_run content t cs ans -> raw_run content pos (CSeek o w :: cs) (AnsPos t :: ans)
  | raw_tell pos cs ans : raw_run content pos cs ans -> raw_run content pos (CTell :: cs) (AnsPos pos :: ans)
  | raw_read pos n cs d ans :
      short_read content pos n d ->
      raw_run content (pos + Z.of_nat (length d)) cs ans -> raw_run content pos (CRead n :: cs) (AnsData d :: ans).

  (** A caller that repeats [read] until it has [n] bytes or an empty answer (what io.BufferedReader does).  [rd] is the
      raw read. *)
  Fixpoint gather {S} (rd : S -> Z -> res (list A) * S) (fuel : nat) (s : S) (n : Z) (acc : list A)
    : res (list A) * S :=
    match fuel with
    | O => (Err OutOfFuel, s)
    | S fuel' =>
      if len acc <? n then
        match rd s (n - len acc) with
        | (Err e, s') => (Err e, s')
        | (Ok [], s') => (Ok acc, s')
        | (Ok d, s') => gather rd fuel' s' n (acc ++ d)
        end
      else (Ok acc, s)
    end.
End Spec.
