(** Specification: a cache of limited capacity is a list of entries ordered by last use, oldest first. *)
From Verif Require Import PyBase PyDict Lru_Model.

Section Spec.
  Context {K V : Type}.
  Variable eqb : K -> K -> bool.

  Definition entries := list (K * V).

  Fixpoint find (k : K) (l : entries) : option V :=
    match l with [] => None | (k', v) :: r => if eqb k k' then Some v else find k r end.
  Definition without (k : K) (l : entries) : entries := filter (fun e => negb (eqb k (fst e))) l.
  (** Using an entry makes it the newest. *)
  Definition use (k : K) (v : V) (l : entries) : entries := without k l ++ [(k, v)].
  (** Only the newest [size] entries are kept. *)
  Definition newest (size : nat) (l : entries) : entries := skipn (length l - size) l.

  Definition ideal_step (size : nat) (l : entries) (o : lop K V) : lout V * entries :=
    match o with
    | LGetItem k => match find k l with Some v => (LVal v, use k v l) | None => (LErr KeyError, l) end
    | LGet k => match find k l with Some v => (LOpt (Some v), use k v l) | None => (LOpt None, l) end
    | LSet k v => (LUnit, newest size (use k v l))
    | LDel k => match find k l with Some _ => (LUnit, without k l) | None => (LErr KeyError, l) end
    | LContains k => (LBool (match find k l with Some _ => true | None => false end), l)
    | LLen => (LNat (length l), l)
    | LClear => (LUnit, [])
    | LSetDefault k v => match find k l with
                         | Some v' => (LVal v', use k v' l)
                         | None => (LVal v, newest size (use k v l))
                         end
    end.

  Fixpoint ideal_run (size : nat) (l : entries) (ops : list (lop K V)) : list (lout V) * entries :=
    match ops with
    | [] => ([], l)
    | o :: r => let '(x, l') := ideal_step size l o in let '(xs, l'') := ideal_run size l' r in (x :: xs, l'')
    end.

  (** The calls for which the code is right: an indexed access only to a present key, [setdefault] of a new key only
      while there is room. *)
  Fixpoint careful (size : nat) (l : entries) (ops : list (lop K V)) : Prop :=
    match ops with
    | [] => True
    | o :: r =>
      match o with
      | LGetItem k => find k l <> None
      | LSetDefault k _ => find k l <> None \/ length l < size
      | _ => True
      end /\ careful size (snd (ideal_step size l o)) r
    end.
End Spec.
