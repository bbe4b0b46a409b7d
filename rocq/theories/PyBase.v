(** Python notions shared by the models: results with exceptions, bytes, slices, file objects,
    association-list dictionaries, [bisect].  Definitions and their basic lemmas. *)
From Coq Require Export List Arith ZArith Lia Bool.
From Coq Require Import ZifyBool ZifyNat.
Export ListNotations.

(** Exceptions that the modelled code raises.  [OutOfFuel] is not a Python exception: it marks a loop of the model
    that ran out of fuel.  Theorems exclude it. *)
Inductive exn : Type :=
| ValueError | KeyError | IndexError | AssertionError | TypeError | FileNotFound | AttributeError
| StructError | UnicodeError | RatarmountError | MismatchingIndexError | RuntimeError
| OSErr (errno : nat) | OutOfFuel.

Inductive res (A : Type) : Type := Ok (a : A) | Err (e : exn).
Arguments Ok {A} a.
Arguments Err {A} e.

Definition is_ok {A} (r : res A) : bool := match r with Ok _ => true | Err _ => false end.

Definition bind {A B} (r : res A) (f : A -> res B) : res B :=
  match r with Ok a => f a | Err e => Err e end.

(** errno values used by the FUSE layer (errno.h). *)
Definition ENOENT := OSErr 2.
Definition EIO := OSErr 5.
Definition EEXIST := OSErr 17.
Definition ENOTDIR := OSErr 20.
Definition EISDIR := OSErr 21.
Definition EINVAL := OSErr 22.
Definition EROFS := OSErr 30.
Definition ENOTEMPTY := OSErr 39.
Definition ENODATA := OSErr 61.
Definition ESTALE := OSErr 116.

Section Slices.
  Context {A : Type}.
  Local Open Scope Z_scope.

  (** [len(l)] as an integer. *)
  Definition len (l : list A) : Z := Z.of_nat (length l).

  (** [l[o:]] for [o >= 0]. *)
  Definition zskip (o : Z) (l : list A) : list A := skipn (Z.to_nat o) l.

  (** [l[:n]] for [n >= 0]. *)
  Definition ztake (n : Z) (l : list A) : list A := firstn (Z.to_nat n) l.

  (** [l[o : o + n]] for [o, n >= 0]: the bytes of the half-open range clipped to the end of [l]. *)
  Definition zslice (l : list A) (o n : Z) : list A := ztake n (zskip o l).

  Lemma len_nonneg l : 0 <= len l.
  Proof. unfold len; lia. Qed.

  Lemma len_nil : len [] = 0.
  Proof. reflexivity. Qed.

  Lemma len_cons x l : len (x :: l) = 1 + len l.
  Proof. unfold len; cbn [length]; lia. Qed.

  Lemma len_app l m : len (l ++ m) = len l + len m.
  Proof. unfold len; rewrite app_length; lia. Qed.

  Lemma len_zero l : len l = 0 -> l = [].
  Proof. destruct l; [reflexivity|]. rewrite len_cons; pose proof (len_nonneg l); lia. Qed.

  Lemma len_zskip o l : 0 <= o -> len (zskip o l) = Z.max 0 (len l - o).
  Proof. intros Ho; unfold len, zskip; rewrite skipn_length; lia. Qed.

  Lemma len_ztake n l : 0 <= n -> len (ztake n l) = Z.min n (len l).
  Proof. intros Hn; unfold len, ztake; rewrite firstn_length; lia. Qed.

  Lemma len_zslice l o n : 0 <= o -> 0 <= n -> len (zslice l o n) = Z.min n (Z.max 0 (len l - o)).
  Proof. intros Ho Hn; unfold zslice; rewrite len_ztake, len_zskip; lia. Qed.

  Lemma zskip_0 l : zskip 0 l = l.
  Proof. reflexivity. Qed.

  Lemma zskip_neg o l : o <= 0 -> zskip o l = l.
  Proof. intros H; unfold zskip; replace (Z.to_nat o) with 0%nat by lia; reflexivity. Qed.

  Lemma ztake_all n l : len l <= n -> ztake n l = l.
  Proof. intros H; unfold ztake; apply firstn_all2; unfold len in H; lia. Qed.

  Lemma ztake_neg n l : n <= 0 -> ztake n l = [].
  Proof. intros H; unfold ztake; replace (Z.to_nat n) with 0%nat by lia; reflexivity. Qed.

  Lemma zskip_all o l : len l <= o -> zskip o l = [].
  Proof. intros H; unfold zskip; apply skipn_all2; unfold len in H; lia. Qed.

  Lemma zskip_zskip a b l : 0 <= a -> 0 <= b -> zskip a (zskip b l) = zskip (a + b) l.
  Proof.
    intros Ha Hb; unfold zskip; rewrite Z2Nat.inj_add by lia.
    generalize (Z.to_nat a) as x, (Z.to_nat b) as y; intros x y; revert l.
    induction y as [|y IH]; intros l; [now rewrite Nat.add_0_r|].
    destruct l as [|z l]; [now rewrite !skipn_nil|].
    rewrite Nat.add_succ_r; cbn [skipn]; apply IH.
  Qed.

  Lemma ztake_zskip n l : 0 <= n -> ztake n l ++ zskip n l = l.
  Proof. intros; unfold ztake, zskip; apply firstn_skipn. Qed.

  Lemma firstn_add (n m : nat) (l : list A) :
    firstn (n + m) l = firstn n l ++ firstn m (skipn n l).
  Proof.
    revert l; induction n as [|n IH]; intros l; [reflexivity|].
    destruct l as [|x l]; cbn [Nat.add firstn skipn app]; [now rewrite firstn_nil|].
    now rewrite IH.
  Qed.

  Lemma zslice_add l o n m : 0 <= o -> 0 <= n -> 0 <= m ->
    zslice l o (n + m) = zslice l o n ++ zslice l (o + n) m.
  Proof.
    intros Ho Hn Hm; unfold zslice, ztake.
    rewrite Z2Nat.inj_add by lia.
    rewrite firstn_add; f_equal.
    rewrite (Z.add_comm o n), <- zskip_zskip by lia; reflexivity.
  Qed.

  Lemma zslice_nil_ge l o n : len l <= o -> zslice l o n = [].
  Proof. intros H; unfold zslice; rewrite zskip_all by exact H; unfold ztake; apply firstn_nil. Qed.

  Lemma zslice_le0 l o n : n <= 0 -> zslice l o n = [].
  Proof. intros H; unfold zslice; apply ztake_neg; exact H. Qed.

  Lemma zslice_full l n : len l <= n -> zslice l 0 n = l.
  Proof. intros H; unfold zslice; rewrite zskip_0; apply ztake_all; exact H. Qed.

  (** A slice past the end may be clipped. *)
  Lemma zslice_clip l o n : 0 <= o -> 0 <= n -> zslice l o n = zslice l o (Z.min n (Z.max 0 (len l - o))).
  Proof.
    intros Ho Hn. destruct (Z.le_gt_cases n (Z.max 0 (len l - o))) as [H|H].
    - now replace (Z.min n _) with n by lia.
    - replace (Z.min n _) with (Z.max 0 (len l - o)) by lia.
      unfold zslice. rewrite !ztake_all; try reflexivity; rewrite len_zskip; lia.
  Qed.

  Lemma skipn_app_ge (o : nat) (l m : list A) : (length l <= o)%nat -> skipn o (l ++ m) = skipn (o - length l) m.
  Proof. intros H. rewrite skipn_app, (skipn_all2 l) by exact H. reflexivity. Qed.

  Lemma zskip_app_ge o l m : len l <= o -> zskip o (l ++ m) = zskip (o - len l) m.
  Proof.
    intros H; unfold zskip. unfold len in *.
    rewrite skipn_app_ge by lia. f_equal; lia.
  Qed.

  Lemma zskip_app_le o l m : 0 <= o <= len l -> zskip o (l ++ m) = zskip o l ++ m.
  Proof.
    intros H; unfold zskip, len in *. rewrite skipn_app.
    replace (Z.to_nat o - length l)%nat with 0%nat by lia. reflexivity.
  Qed.

  Lemma ztake_app_le n l m : n <= len l -> ztake n (l ++ m) = ztake n l.
  Proof.
    intros H; unfold ztake, len in *. rewrite firstn_app.
    replace (Z.to_nat n - length l)%nat with 0%nat by lia. cbn [firstn]. apply app_nil_r.
  Qed.

  Lemma zslice_app_l l m o n : 0 <= o -> 0 <= n -> o + n <= len l -> zslice (l ++ m) o n = zslice l o n.
  Proof.
    intros Ho Hn H; unfold zslice. rewrite zskip_app_le by lia.
    apply ztake_app_le. rewrite len_zskip; lia.
  Qed.

  Lemma zslice_app_r l m o n : len l <= o -> zslice (l ++ m) o n = zslice m (o - len l) n.
  Proof. intros H; unfold zslice; now rewrite zskip_app_ge. Qed.

  (** A slice of a slice is a slice. *)
  Lemma zslice_zslice l o n o' n' : 0 <= o -> 0 <= n -> 0 <= o' -> 0 <= n' -> o' + n' <= n ->
    zslice (zslice l o n) o' n' = zslice l (o + o') n'.
  Proof.
    intros Ho Hn Ho' Hn' H; unfold zslice, ztake, zskip.
    rewrite skipn_firstn_comm, firstn_firstn.
    replace (Nat.min _ _) with (Z.to_nat n') by lia.
    f_equal. pose proof (zskip_zskip o' o l Ho' Ho) as E; unfold zskip in E.
    now rewrite E, Z.add_comm.
  Qed.

  (** Python's [l[a:b]] with negative indexes counting from the end. *)
  Definition py_index (l : list A) (i : Z) : Z := if i <? 0 then Z.max 0 (i + len l) else Z.min i (len l).
  Definition py_slice (l : list A) (a b : Z) : list A :=
    zslice l (py_index l a) (Z.max 0 (py_index l b - py_index l a)).

  Lemma py_slice_zslice l a b : 0 <= a -> a <= b -> py_slice l a b = zslice l a (b - a).
  Proof.
    intros Ha Hb. unfold py_slice, py_index.
    destruct (Z.ltb_spec a 0); [lia|]. destruct (Z.ltb_spec b 0); [lia|].
    destruct (Z.le_gt_cases (len l) a) as [H1|H1].
    - rewrite (zslice_nil_ge l a) by lia. apply zslice_nil_ge. lia.
    - replace (Z.min a (len l)) with a by lia.
      rewrite (zslice_clip l a (b - a)) by lia. f_equal. lia.
  Qed.
End Slices.
Global Arguments py_slice {A} l a b : simpl never.

Global Arguments zslice {A} l o n : simpl never.
Global Arguments ztake {A} n l : simpl never.
Global Arguments zskip {A} o l : simpl never.
Global Arguments len {A} l : simpl never.

(** ** File objects of the standard library *)
Section Files.
  Context {A : Type}.
  Local Open Scope Z_scope.

  (** [io.RawIOBase.read(n)] of a regular file at position [p]: a negative [n] reads to the end. *)
  Definition file_read (content : list A) (p n : Z) : list A :=
    if n <? 0 then zskip p content else zslice content p n.
End Files.

(** ** [bisect.bisect_left] of the standard library, binary search of [Lib/bisect.py]:
<<
    while lo < hi:
        mid = (lo + hi) // 2
        if a[mid] < x: lo = mid + 1
        else: hi = mid
    return lo
>> *)
Fixpoint bisect_left_go (fuel : nat) (a : list Z) (x : Z) (lo hi : nat) : nat :=
  match fuel with
  | O => lo
  | S fuel' =>
      if Nat.ltb lo hi then
        let mid := Nat.div2 (lo + hi) in
        if Z.ltb (nth mid a 0%Z) x then bisect_left_go fuel' a x (S mid) hi
        else bisect_left_go fuel' a x lo mid
      else lo
  end.
Definition bisect_left (a : list Z) (x : Z) : nat := bisect_left_go (length a) a x 0 (length a).

(** [bisect.bisect_right]: same with [if x < a[mid]: hi = mid else: lo = mid + 1]. *)
Fixpoint bisect_right_go (fuel : nat) (a : list Z) (x : Z) (lo hi : nat) : nat :=
  match fuel with
  | O => lo
  | S fuel' =>
      if Nat.ltb lo hi then
        let mid := Nat.div2 (lo + hi) in
        if Z.ltb x (nth mid a 0%Z) then bisect_right_go fuel' a x lo mid
        else bisect_right_go fuel' a x (S mid) hi
      else lo
  end.
Definition bisect_right (a : list Z) (x : Z) : nat := bisect_right_go (length a) a x 0 (length a).

Definition sortedZ (a : list Z) : Prop := forall i j, i <= j -> j < length a -> (nth i a 0 <= nth j a 0)%Z.

Lemma div2_mid lo hi : lo < hi -> lo <= Nat.div2 (lo + hi) < hi.
Proof.
  intros H. pose proof (Nat.div2_odd (lo + hi)) as E. unfold Nat.b2n in E.
  destruct (Nat.odd (lo + hi)); lia.
Qed.

(** [bisect_left a x] is the number [i] with [a[:i] < x <= a[i:]]. *)
Lemma bisect_left_go_spec fuel a x lo hi :
  sortedZ a -> lo <= hi -> hi <= length a -> hi - lo <= fuel ->
  (forall k, k < lo -> (nth k a 0 < x)%Z) ->
  (forall k, hi <= k -> k < length a -> (x <= nth k a 0)%Z) ->
  let i := bisect_left_go fuel a x lo hi in
  i <= length a /\ (forall k, k < i -> (nth k a 0 < x)%Z) /\ (forall k, i <= k -> k < length a -> (x <= nth k a 0)%Z).
Proof.
  intros Hs. revert lo hi. induction fuel as [|fuel IH]; intros lo hi Hlh Hh Hf Hl Hr; cbn [bisect_left_go].
  - assert (lo = hi) by lia; subst; cbn; auto.
  - destruct (Nat.ltb_spec lo hi) as [H|H].
    + pose proof (div2_mid lo hi H) as Hm. destruct (Z.ltb_spec (nth (Nat.div2 (lo + hi)) a 0%Z) x) as [Hx|Hx].
      * apply IH; try lia; auto. intros k Hk.
        assert (nth k a 0 <= nth (Nat.div2 (lo + hi)) a 0)%Z by (apply Hs; lia). lia.
      * apply IH; try lia; auto. intros k Hk Hk'.
        assert (nth (Nat.div2 (lo + hi)) a 0 <= nth k a 0)%Z by (apply Hs; lia). lia.
    + assert (lo = hi) by lia; subst; cbn; auto.
Qed.

Lemma bisect_left_spec a x : sortedZ a ->
  let i := bisect_left a x in
  i <= length a /\ (forall k, k < i -> (nth k a 0 < x)%Z) /\ (forall k, i <= k -> k < length a -> (x <= nth k a 0)%Z).
Proof. intros Hs; apply bisect_left_go_spec; auto; try lia. Qed.

Lemma bisect_right_go_spec fuel a x lo hi :
  sortedZ a -> lo <= hi -> hi <= length a -> hi - lo <= fuel ->
  (forall k, k < lo -> (nth k a 0 <= x)%Z) ->
  (forall k, hi <= k -> k < length a -> (x < nth k a 0)%Z) ->
  let i := bisect_right_go fuel a x lo hi in
  i <= length a /\ (forall k, k < i -> (nth k a 0 <= x)%Z) /\ (forall k, i <= k -> k < length a -> (x < nth k a 0)%Z).
Proof.
  intros Hs. revert lo hi. induction fuel as [|fuel IH]; intros lo hi Hlh Hh Hf Hl Hr; cbn [bisect_right_go].
  - assert (lo = hi) by lia; subst; cbn; auto.
  - destruct (Nat.ltb_spec lo hi) as [H|H].
    + pose proof (div2_mid lo hi H) as Hm. destruct (Z.ltb_spec x (nth (Nat.div2 (lo + hi)) a 0%Z)) as [Hx|Hx].
      * apply IH; try lia; auto. intros k Hk Hk'.
        assert (nth (Nat.div2 (lo + hi)) a 0 <= nth k a 0)%Z by (apply Hs; lia). lia.
      * apply IH; try lia; auto. intros k Hk.
        assert (nth k a 0 <= nth (Nat.div2 (lo + hi)) a 0)%Z by (apply Hs; lia). lia.
    + assert (lo = hi) by lia; subst; cbn; auto.
Qed.

Lemma bisect_right_spec a x : sortedZ a ->
  let i := bisect_right a x in
  i <= length a /\ (forall k, k < i -> (nth k a 0 <= x)%Z) /\ (forall k, i <= k -> k < length a -> (x < nth k a 0)%Z).
Proof. intros Hs; apply bisect_right_go_spec; auto; try lia. Qed.

(** ** Function update *)
Definition upd {V} (m : nat -> V) (k : nat) (v : V) : nat -> V := fun k' => if Nat.eqb k k' then v else m k'.

Lemma upd_same {V} (m : nat -> V) k v : upd m k v k = v.
Proof. unfold upd; now rewrite Nat.eqb_refl. Qed.

Lemma upd_other {V} (m : nat -> V) k k' v : k <> k' -> upd m k v k' = m k'.
Proof. unfold upd; intros H; destruct (Nat.eqb_spec k k'); congruence. Qed.
