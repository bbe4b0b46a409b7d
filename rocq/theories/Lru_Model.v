(** Model of core/ratarmountcore/utils.py: [LRUCache] and [Prefetcher]. *)
From Verif Require Import PyBase PyDict.

Section Lru.
  Context {K V : Type}.
  Variable eqb : K -> K -> bool.

  (** utils.py:90-93 *)
  Record lru := mkLru { l_size : nat; l_lastUsed : list K; l_data : list (K * V) }.
  Definition lru_init (size : nat) : lru := mkLru size [] [].

  (** [list.remove(x)]: removes the first occurrence (the code only calls it for members). *)
  Fixpoint remove1 (x : K) (l : list K) : list K :=
    match l with [] => [] | y :: r => if eqb x y then r else y :: remove1 x r end.

  (** LRUCache._refresh, utils.py:95-98 *)
  Definition refresh (lu : list K) (k : K) : list K :=
    (if existsb (eqb k) lu then remove1 k lu else lu) ++ [k].

  (** LRUCache.__getitem__, utils.py:100-102.  [lastUsed] is changed before the KeyError. *)
  Definition lru_getitem (c : lru) (k : K) : res V * lru :=
    let c' := mkLru (l_size c) (refresh (l_lastUsed c) k) (l_data c) in
    match dget eqb (l_data c) k with Some v => (Ok v, c') | None => (Err KeyError, c') end.

  (** LRUCache.get, utils.py:104-108 (default None) *)
  Definition lru_get (c : lru) (k : K) : option V * lru :=
    let lu := if existsb (eqb k) (l_lastUsed c) then remove1 k (l_lastUsed c) ++ [k] else l_lastUsed c in
    (dget eqb (l_data c) k, mkLru (l_size c) lu (l_data c)).

  (** The eviction loop of LRUCache.__setitem__, utils.py:114-115: recursion on [lastUsed], which shrinks in every
      iteration. *)
  Fixpoint evict (size : nat) (lu : list K) (data : list (K * V)) : res unit * list K * list (K * V) :=
    if Nat.ltb size (length data) then
      match lu with
      | [] => (Err IndexError, [], data)
      | k :: r => if dmem eqb data k then evict size r (ddel eqb data k) else (Err KeyError, r, data)
      end
    else (Ok tt, lu, data).

  (** LRUCache.__setitem__, utils.py:110-115 *)
  Definition lru_set (c : lru) (k : K) (v : V) : res unit * lru :=
    let '(r, lu, data) := evict (l_size c) (refresh (l_lastUsed c) k) (dset eqb (l_data c) k v) in
    (r, mkLru (l_size c) lu data).

  (** LRUCache.__delitem__, utils.py:117-120 *)
  Definition lru_del (c : lru) (k : K) : res unit * lru :=
    if dmem eqb (l_data c) k then
      (Ok tt, mkLru (l_size c) (if existsb (eqb k) (l_lastUsed c) then remove1 k (l_lastUsed c) else l_lastUsed c)
                    (ddel eqb (l_data c) k))
    else (Err KeyError, c).

  (** LRUCache.__contains__, utils.py:122-123 *)
  Definition lru_contains (c : lru) (k : K) : bool := dmem eqb (l_data c) k.

  (** LRUCache.clear, utils.py:134-136 *)
  Definition lru_clear (c : lru) : lru := mkLru (l_size c) [] [].

  (** LRUCache.setdefault, utils.py:144-146: no eviction. *)
  Definition lru_setdefault (c : lru) (k : K) (v : V) : V * lru :=
    let lu := refresh (l_lastUsed c) k in
    match dget eqb (l_data c) k with
    | Some v' => (v', mkLru (l_size c) lu (l_data c))
    | None => (v, mkLru (l_size c) lu (dset eqb (l_data c) k v))
    end.

  Inductive lop := LGetItem (k : K) | LGet (k : K) | LSet (k : K) (v : V) | LDel (k : K) | LContains (k : K)
                 | LLen | LClear | LSetDefault (k : K) (v : V).
  Inductive lout := LVal (v : V) | LOpt (v : option V) | LUnit | LBool (b : bool) | LNat (n : nat) | LErr (e : exn).

  Definition lru_step (c : lru) (o : lop) : lout * lru :=
    match o with
    | LGetItem k => match lru_getitem c k with (Ok v, c') => (LVal v, c') | (Err e, c') => (LErr e, c') end
    | LGet k => let '(v, c') := lru_get c k in (LOpt v, c')
    | LSet k v => match lru_set c k v with (Ok _, c') => (LUnit, c') | (Err e, c') => (LErr e, c') end
    | LDel k => match lru_del c k with (Ok _, c') => (LUnit, c') | (Err e, c') => (LErr e, c') end
    | LContains k => (LBool (lru_contains c k), c)
    | LLen => (LNat (length (l_data c)), c)
    | LClear => (LUnit, lru_clear c)
    | LSetDefault k v => let '(v', c') := lru_setdefault c k v in (LVal v', c')
    end.

  Fixpoint lru_run (c : lru) (ops : list lop) : list lout * lru :=
    match ops with
    | [] => ([], c)
    | o :: r => let '(x, c') := lru_step c o in let '(xs, c'') := lru_run c' r in (x :: xs, c'')
    end.
End Lru.
Arguments lru : clear implicits.
Arguments lop : clear implicits.
Arguments lout : clear implicits.

(** Prefetcher.fetch, utils.py:157-162.  [memorySize] is 4 (BlockParallelReaders.py:60). *)
Definition pf_fetch (memorySize : nat) (lastFetched : list nat) (value : nat) : list nat :=
  let l := (if existsb (Nat.eqb value) lastFetched then remove1 Nat.eqb value lastFetched else lastFetched) ++ [value] in
  skipn (length l - memorySize) l.

(** Prefetcher.prefetch, utils.py:164-182.  The exponential formula for the number of blocks (floating point, 181) is the
    parameter [count]. *)
Definition pf_prefetch (count : nat -> nat -> nat) (memorySize maximum : nat) (lastFetched : list nat) : list nat :=
  match rev lastFetched with
  | [] => []
  | newest :: older =>
    if Nat.leb maximum 0 then []
    else
      let fix consecutive (newer : nat) (l : list nat) : nat :=
        match l with [] => 0 | j :: r => if Nat.eqb newer (j + 1) then S (consecutive j r) else 0 end in
      seq (newest + 1) (count maximum (consecutive newest older))
  end.
