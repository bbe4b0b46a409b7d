(** Lemmas about the shared file object: with a buffer that holds the whole archive, the position does not matter. *)
From Verif Require Import PyBase LibShared_Model LibShared_Spec.
Local Open Scope nat_scope.

Section Small.
  Variable members : list (list nat).
  Variable buffer cache_size : nat.
  Variable bytes : list nat.
  Hypothesis Eb : bytes = archive_of members.
  Hypothesis H_small : length bytes <= buffer.

  (** Everything is held. *)
  Definition arch_ok (a : sarch) : Prop :=
    sa_left a <= length (sa_pending a) /\ skipn (sa_left a) (sa_pending a) = archive_of (skipn (sa_index a) members).

  Lemma pull_end fuel n pending : pull bytes buffer fuel n pending (length bytes) = (pending, length bytes).
  Proof. destruct fuel; [reflexivity|]. cbn [pull]. rewrite skipn_all, firstn_nil. now destruct (n <=? length pending). Qed.
  Lemma pull_all_end n pending : pull_all bytes buffer n pending (length bytes) = (pending, length bytes).
  Proof. apply pull_end. Qed.

  Lemma pull_first : pull_all bytes buffer 1 [] 0 = (bytes, length bytes).
  Proof.
    unfold pull_all. cbn [pull length Nat.leb skipn]. rewrite firstn_all2 by assumption. pose proof pull_end as P.
    destruct bytes as [|b l]; [reflexivity|]. cbn [app Nat.add]. apply P.
  Qed.

  Lemma new_ok : exists a, sa_new bytes buffer = (a, length bytes) /\ sa_index a = 0 /\ arch_ok a /\ sa_eof a = false.
  Proof.
    unfold sa_new. rewrite pull_first. eexists. split; [reflexivity|]. split; [reflexivity|]. split; [|reflexivity]. split; [cbn; lia|exact Eb].
  Qed.

  Lemma skipn_nth {X} (l : list X) n x : nth_error l n = Some x -> skipn n l = x :: skipn (S n) l.
  Proof. revert n. induction l as [|y l IH]; intros [|n] E; try discriminate; cbn in *; [now injection E as ->|]. rewrite (IH n E). reflexivity. Qed.
  Lemma skipn_none {X} (l : list X) n : nth_error l n = None -> skipn n l = [].
  Proof. intros E. apply nth_error_None in E. now apply skipn_all2. Qed.

  (** An archive that can still reach member [index]. *)
  Definition reaches (index : nat) (a : sarch) : Prop := arch_ok a /\ sa_index a <= index /\ sa_eof a = false.

  Lemma next_ok a m : arch_ok a -> sa_eof a = false -> nth_error members (sa_index a) = Some m ->
    exists rest, sa_next bytes buffer a (length bytes) = (mkSA (S (sa_index a)) (m ++ rest) (length m) false, length bytes, Some (sa_index a)) /\
      arch_ok (mkSA (S (sa_index a)) (m ++ rest) (length m) false).
  Proof.
    intros [H1 H2] He E. unfold sa_next. rewrite He, pull_all_end, H2, (skipn_nth _ _ _ E). cbn [archive_of flat_map app].
    exists (archive_of (skipn (S (sa_index a)) members)). split; [reflexivity|].
    split; cbn [sa_left sa_pending sa_index]; [rewrite app_length; lia|]. rewrite skipn_app, skipn_all, Nat.sub_diag. reflexivity.
  Qed.

  Lemma find_ok fuel : forall a index m, reaches index a -> nth_error members index = Some m -> index - sa_index a < fuel ->
    exists rest, sa_find bytes buffer fuel a (length bytes) index = (mkSA (S index) (m ++ rest) (length m) false, length bytes, Ok true) /\
      arch_ok (mkSA (S index) (m ++ rest) (length m) false).
  Proof.
    induction fuel as [|fuel IH]; intros a index m (Ha & Hi & He) Hm Hf; [lia|]. cbn [sa_find].
    destruct (nth_error members (sa_index a)) as [m'|] eqn:E.
    - destruct (next_ok a m' Ha He E) as (rest & -> & Ha'). destruct (Nat.eqb_spec (sa_index a) index) as [Eq|N].
      + exists rest. rewrite Eq in *. rewrite Hm in E. injection E as <-. auto.
      + apply (IH _ index m); [|assumption|cbn [sa_index]; lia]. split; [assumption|]. cbn [sa_index sa_eof]. split; [lia|reflexivity].
    - exfalso. apply nth_error_None in E. assert (index < length members) by (apply nth_error_Some; congruence). lia.
  Qed.

  Lemma read_ok index m rest : arch_ok (mkSA (S index) (m ++ rest) (length m) false) ->
    exists a, sa_read bytes buffer (mkSA (S index) (m ++ rest) (length m) false) (length bytes) (length m) = (a, length bytes, m) /\ arch_ok a /\ sa_eof a = false.
  Proof.
    intros [H1 H2]. cbn [sa_left sa_pending sa_index] in *. unfold sa_read. cbn [sa_left sa_pending sa_index sa_eof]. rewrite Nat.min_id, pull_all_end.
    assert (Ef : firstn (length m) (m ++ rest) = m) by (rewrite firstn_app, Nat.sub_diag, firstn_all; apply app_nil_r).
    rewrite Ef, H2, Nat.sub_diag. eexists. split; [reflexivity|]. split; [|reflexivity]. split; cbn [sa_left sa_pending sa_index skipn]; [lia|reflexivity].
  Qed.

  Definition held (a : sarch) : Prop := arch_ok a /\ sa_eof a = false.

  Lemma best_ok cache index a : Forall held cache -> sa_best cache index = Some a -> reaches index a.
  Proof.
    intros H. revert a. induction cache as [|b cache IH]; intros a E; [discriminate|]. inversion H as [|? ? [Hb1 Hb2] Hc]; subst. cbn [sa_best] in E.
    assert (R : sa_index b < index -> reaches index b) by (intros L; split; [assumption|]; split; [lia|assumption]).
    destruct (sa_best cache index) as [c|].
    - destruct (Nat.ltb_spec (sa_index b) index) as [L|L]; cbn [andb] in E; [|injection E as <-; now apply IH].
      destruct (sa_index c <=? sa_index b); injection E as <-; [now apply R|now apply IH].
    - destruct (Nat.ltb_spec (sa_index b) index) as [L|L]; [|discriminate]. injection E as <-. now apply R.
  Qed.
  Lemma remove_ok cache index : Forall held cache -> Forall held (sa_remove index cache).
  Proof. induction 1 as [|a cache Ha Hc IH]; cbn [sa_remove]; [constructor|]. destruct (sa_index a =? index); [assumption|]. now constructor. Qed.
  Lemma insert_ok cache a : Forall held cache -> held a -> Forall held (sa_insert cache_size cache a).
  Proof.
    intros H Ha. unfold sa_insert. rewrite Forall_forall in *. intros x Hx.
    assert (In x (cache ++ [a])) as I by (rewrite <- (firstn_skipn (length (cache ++ [a]) - cache_size) (cache ++ [a])); apply in_or_app; now right).
    apply in_app_or in I as [I|[<-|[]]]; auto.
  Qed.

  Definition shared_ok (st : list sarch * nat) : Prop := Forall held (fst st) /\ (fst st <> [] -> snd st = length bytes).

  Lemma archive_length : length members <= length bytes.
  Proof. rewrite Eb. clear. induction members as [|m l IH]; [cbn; lia|]. cbn [archive_of flat_map]. rewrite app_length. cbn [length]. unfold archive_of in IH. lia. Qed.

  Lemma fetch_ok st index m : shared_ok st -> nth_error members index = Some m ->
    exists cache, fetch bytes buffer cache_size st index (length m) = (cache, length bytes, Ok m) /\ shared_ok (cache, length bytes).
  Proof.
    destruct st as [cache pos]. intros [Hc Hp] Hm. cbn [fst snd] in *. unfold fetch.
    assert (L : index < length members) by (apply nth_error_Some; congruence). pose proof archive_length.
    assert (K : forall a cache', reaches index a -> Forall held cache' -> exists cache'',
      (let '(a, pos, found) := sa_find bytes buffer (length bytes + 2) a (length bytes) index in
       match found with
       | Err e => (sa_insert cache_size cache' a, pos, Err e)
       | Ok false => (sa_insert cache_size cache' a, pos, Err ValueError)
       | Ok true =>
         let '(a, pos, data) := sa_read bytes buffer a pos (length m) in
         (sa_insert cache_size cache' a, pos, if length data =? length m then Ok data else Err RuntimeError)
       end) = (cache'', length bytes, Ok m) /\ shared_ok (cache'', length bytes)).
    { intros a cache' Ha Hc'. destruct (find_ok (length bytes + 2) a index m Ha Hm ltac:(lia)) as (rest & -> & Ha').
      destruct (read_ok index m rest Ha') as (a'' & -> & Ha'' & He). rewrite Nat.eqb_refl. eexists. split; [reflexivity|].
      split; [|reflexivity]. cbn [fst]. apply insert_ok; [assumption|]. split; assumption. }
    destruct (sa_best cache index) as [a|] eqn:E.
    - assert (Hpos : pos = length bytes) by (apply Hp; intros ->; discriminate). subst pos.
      apply K; [now apply (best_ok cache)|now apply remove_ok].
    - destruct new_ok as (a & -> & Ei & Ha & He). apply K; [|assumption]. split; [assumption|]. split; [lia|assumption].
  Qed.

  Lemma fetches_ok opens : forall st, shared_ok st ->
    Forall (fun '(index, size) => exists m, nth_error members index = Some m /\ size = length m) opens ->
    fetches bytes buffer cache_size st opens = map (fun '(index, _) => Ok (nth index members [])) opens.
  Proof.
    induction opens as [|[index size] opens IH]; intros st Hst H; [reflexivity|]. pose proof (Forall_inv H) as (m & Hm & ->). pose proof (Forall_inv_tail H) as H'.
    cbn [fetches map]. destruct (fetch_ok st index m Hst Hm) as (cache & -> & Hst'). f_equal; [|now apply IH].
    now rewrite (nth_error_nth _ _ [] Hm).
  Qed.
End Small.
