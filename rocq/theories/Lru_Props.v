(** Property C07: the least-recently-used cache. *)
From Verif Require Import PyBase PyDict Lru_Model Lru_Spec Lru_Proofs.

(** C07, provable part: for every sequence of calls that only indexes present keys and calls [setdefault] for a new key
    only while there is room, the cache answers like the ideal cache (entries ordered by last use, only the newest
    [size] kept), so it never fails by its own bookkeeping, and holds at most [size] entries.
    Missing for the full statement: the two other kinds of calls (refuted below). *)
Theorem C07_lru_partial :
  forall (K V : Type) (eqb : K -> K -> bool),
    (forall x y, reflect (x = y) (eqb x y)) ->
    forall (size : nat) (ops : list (lop K V)),
    careful eqb size [] ops ->
    fst (lru_run eqb (lru_init size) ops) = fst (ideal_run eqb size [] ops) /\
    length (l_data (snd (lru_run eqb (lru_init size) ops))) <= size.
Proof. exact @lru_correct. Qed.
Print Assumptions C07_lru_partial.

Example C07_example :
  careful Nat.eqb 2 [] [LSet 1 10; LSet 2 20; LGetItem 1; LSet 3 30; LContains 2; LSetDefault 1 99; LSet 4 40; LGet 3; LDel 1; LSetDefault 7 70]
  /\ fst (lru_run Nat.eqb (lru_init 2) [LSet 1 10; LSet 2 20; LGetItem 1; LSet 3 30; LContains 2; LSetDefault 1 99; LSet 4 40; LGet 3; LDel 1; LSetDefault 7 70])
     = [LUnit; LUnit; LVal 10; LUnit; LBool false; LVal 10; LUnit; LOpt None; LUnit; LVal 70].
Proof. split; [cbn; repeat split; try discriminate; try (left; discriminate); right; lia|reflexivity]. Qed.

(** C07 in full is false: a failed lookup leaves the key in the usage list; a later insertion that has to evict it fails
    with KeyError (and has then exceeded the capacity). *)
Theorem C07_failed_getitem_refuted :
  exists ops : list (lop nat nat),
    fst (lru_run Nat.eqb (lru_init 1) ops) <> fst (ideal_run Nat.eqb 1 [] ops) /\
    In (LErr KeyError) (skipn 1 (fst (lru_run Nat.eqb (lru_init 1) ops))) /\
    1 < length (l_data (snd (lru_run Nat.eqb (lru_init 1) ops))).
Proof. exists [LGetItem 5; LSet 1 10; LSet 2 20]. cbn. split; [discriminate|]. split; [tauto|lia]. Qed.
Print Assumptions C07_failed_getitem_refuted.

(** C07 in full is false: [setdefault] of new keys grows the cache without limit. *)
Theorem C07_setdefault_refuted :
  forall n : nat,
    length (l_data (snd (lru_run Nat.eqb (lru_init 1) (map (fun k => LSetDefault k k) (seq 0 n))))) = n.
Proof.
  intros n.
  assert (G : forall m k c, (forall x, In x (dkeys (l_data c)) -> x < k) ->
            length (l_data (snd (lru_run Nat.eqb c (map (fun k => LSetDefault k k) (seq k m))))) = length (l_data c) + m).
  { induction m as [|m IH]; intros k c Hk; cbn [seq map lru_run]; [cbn; lia|].
    cbn [lru_step]. unfold lru_setdefault.
    assert (E : dget Nat.eqb (l_data c) k = None).
    { apply (dget_None Nat.eqb nat_eqb_spec). intros H. apply Hk in H. lia. }
    rewrite E. set (c' := mkLru _ _ _). specialize (IH (S k) c').
    destruct (lru_run Nat.eqb c' _) as [outs c''] eqn:Er. cbn [snd] in *. rewrite IH.
    - unfold c'. cbn [l_data]. rewrite (length_dset Nat.eqb nat_eqb_spec). unfold dmem. rewrite E. lia.
    - intros x Hx. unfold c' in Hx. cbn [l_data] in Hx. apply (In_dkeys_dset Nat.eqb nat_eqb_spec) in Hx as [->|Hx]; [lia|].
      apply Hk in Hx. lia. }
  rewrite (G n 0 (lru_init 1)); [reflexivity|]. intros x [].
Qed.
Print Assumptions C07_setdefault_refuted.
