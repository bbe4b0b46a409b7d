(** Python strings as lists of characters, with the operations the code uses. *)
From Coq Require Import Ascii String.
From Verif Require Import PyBase.
Open Scope list_scope.

Notation str := (list ascii).
(** String literals: [$"abc"]. *)
Notation "$ s" := (list_ascii_of_string s%string) (at level 1, s at level 0, format "$ s").

Definition slash : ascii := "/"%char.
Definition dotc : ascii := "."%char.

Definition str_eqb (a b : str) : bool := if list_eq_dec ascii_dec a b then true else false.
Lemma str_eqb_spec a b : reflect (a = b) (str_eqb a b).
Proof. unfold str_eqb. destruct (list_eq_dec ascii_dec a b); constructor; assumption. Qed.
Lemma str_eqb_refl a : str_eqb a a = true.
Proof. destruct (str_eqb_spec a a); congruence. Qed.
Lemma str_eqb_eq a b : str_eqb a b = true <-> a = b.
Proof. destruct (str_eqb_spec a b); split; congruence. Qed.
Lemma str_eqb_neq a b : str_eqb a b = false <-> a <> b.
Proof. destruct (str_eqb_spec a b); split; congruence. Qed.

Definition char_eqb (a b : ascii) : bool := Ascii.eqb a b.
Lemma char_eqb_spec a b : reflect (a = b) (char_eqb a b).
Proof. apply Ascii.eqb_spec. Qed.

(** [s.split(c)] for a single character [c]: never empty. *)
Fixpoint split (c : ascii) (s : str) : list str :=
  match s with
  | [] => [[]]
  | x :: r => if char_eqb x c then [] :: split c r
              else match split c r with [] => [[x]] | p :: ps => (x :: p) :: ps end
  end.

(** [sep.join(parts)] *)
Fixpoint join (sep : str) (parts : list str) : str :=
  match parts with
  | [] => []
  | [p] => p
  | p :: r => p ++ sep ++ join sep r
  end.

(** [s.lstrip(c)], [s.rstrip(c)], [s.strip(c)] for a single character. *)
Fixpoint lstrip (c : ascii) (s : str) : str :=
  match s with [] => [] | x :: r => if char_eqb x c then lstrip c r else s end.
Definition rstrip (c : ascii) (s : str) : str := rev (lstrip c (rev s)).
Definition strip (c : ascii) (s : str) : str := rstrip c (lstrip c s).

(** [s.startswith(p)], [s.endswith(p)] *)
Fixpoint starts_with (p s : str) : bool :=
  match p, s with
  | [], _ => true
  | a :: p', b :: s' => char_eqb a b && starts_with p' s'
  | _ :: _, [] => false
  end.
Definition ends_with (p s : str) : bool := starts_with (rev p) (rev s).

(** [s.rsplit(c, 1)]: [None] if [c] does not occur (Python returns [[s]]). *)
Fixpoint rsplit1 (c : ascii) (s : str) : option (str * str) :=
  match s with
  | [] => None
  | x :: r => match rsplit1 c r with
              | Some (a, b) => Some (x :: a, b)
              | None => if char_eqb x c then Some ([], r) else None
              end
  end.

(** [s.split(c, 1)] *)
Fixpoint split1 (c : ascii) (s : str) : option (str * str) :=
  match s with
  | [] => None
  | x :: r => if char_eqb x c then Some ([], r)
              else match split1 c r with Some (a, b) => Some (x :: a, b) | None => None end
  end.

(** * Lemmas *)

Lemma split_nonempty c s : split c s <> [].
Proof. destruct s as [|x r]; cbn; [discriminate|]. destruct (char_eqb x c); [discriminate|]. destruct (split c r); discriminate. Qed.

Lemma join_split c s : join [c] (split c s) = s.
Proof.
  induction s as [|x r IH]; [reflexivity|]. cbn [split].
  destruct (char_eqb_spec x c) as [->|Hx].
  - pose proof (split_nonempty c r). destruct (split c r) as [|p ps] eqn:E; [congruence|].
    change (join [c] ([] :: p :: ps)) with ([] ++ [c] ++ join [c] (p :: ps)). rewrite IH. reflexivity.
  - pose proof (split_nonempty c r). destruct (split c r) as [|p ps] eqn:E; [congruence|].
    rewrite <- IH. destruct ps; reflexivity.
Qed.

Lemma split_no_sep c s : ~ In c s -> split c s = [s].
Proof.
  induction s as [|x r IH]; intros H; [reflexivity|]. cbn. destruct (char_eqb_spec x c) as [->|].
  - exfalso; apply H; now left.
  - rewrite IH; [reflexivity|]. intros Hr; apply H; now right.
Qed.

Lemma split_app c p s : ~ In c p -> split c (p ++ c :: s) = p :: split c s.
Proof.
  induction p as [|x r IH]; intros H; cbn.
  - destruct (char_eqb_spec c c); congruence.
  - destruct (char_eqb_spec x c) as [->|]; [exfalso; apply H; now left|].
    rewrite IH; [reflexivity|]. intros Hr; apply H; now right.
Qed.

Lemma split_join c parts : parts <> [] -> Forall (fun p => ~ In c p) parts -> split c (join [c] parts) = parts.
Proof.
  induction parts as [|p r IH]; intros Hne Hf; [congruence|]. inversion Hf; subst.
  destruct r as [|q r'].
  - cbn. now apply split_no_sep.
  - change (join [c] (p :: q :: r')) with (p ++ c :: join [c] (q :: r')). rewrite split_app by assumption.
    rewrite IH; [reflexivity|discriminate|assumption].
Qed.

Lemma split_In_no_sep c s p : In p (split c s) -> ~ In c p.
Proof.
  revert p. induction s as [|x r IH]; intros p; cbn.
  - intros [<-|[]]. auto.
  - destruct (char_eqb_spec x c) as [->|Hx].
    + intros [<-|H]; [auto|]. now apply IH.
    + pose proof (split_nonempty c r). destruct (split c r) as [|q qs]; [congruence|].
      intros [<-|Hp].
      * intros [->|Hc]; [congruence|]. apply (IH q); [now left|assumption].
      * apply IH. now right.
Qed.

Lemma split_app2 c a b : exists xs y z zs, split c a = xs ++ [y] /\ split c b = z :: zs /\ split c (a ++ b) = xs ++ (y ++ z) :: zs.
Proof.
  induction a as [|x r (xs & y & z & zs & E1 & E2 & E3)]; cbn.
  - pose proof (split_nonempty c b). destruct (split c b) as [|z zs]; [congruence|]. exists [], [], z, zs. auto.
  - rewrite E1, E3. destruct (char_eqb x c).
    + exists ([] :: xs), y, z, zs. auto.
    + destruct xs as [|x0 xs].
      * exists [], (x :: y), z, zs. auto.
      * exists ((x :: x0) :: xs), y, z, zs. auto.
Qed.

Lemma split_cons_sep c s : split c (c :: s) = [] :: split c s.
Proof. cbn. destruct (char_eqb_spec c c); congruence. Qed.

Lemma split_app_sep c a b : split c (a ++ c :: b) = split c a ++ split c b.
Proof.
  induction a as [|x r IH].
  - cbn [app]. rewrite split_cons_sep. reflexivity.
  - cbn. destruct (char_eqb x c); [now rewrite IH|]. rewrite IH.
    pose proof (split_nonempty c r). destruct (split c r); [congruence|reflexivity].
Qed.

Lemma join_cons sep p q r : join sep (p :: q :: r) = p ++ sep ++ join sep (q :: r).
Proof. reflexivity. Qed.

Lemma join_app sep a b : a <> [] -> b <> [] -> join sep (a ++ b) = join sep a ++ sep ++ join sep b.
Proof.
  induction a as [|x r IH]; intros Ha Hb; [congruence|]. destruct r as [|y r].
  - destruct b; [congruence|reflexivity].
  - cbn [app] in *. rewrite !join_cons. rewrite IH by (discriminate || assumption). now rewrite <- !app_assoc.
Qed.

Lemma lstrip_nil_iff c s : lstrip c s = [] <-> Forall (eq c) s.
Proof.
  induction s as [|x r IH]; cbn; [split; auto|]. destruct (char_eqb_spec x c) as [->|Hx].
  - rewrite IH. split; [now constructor|now inversion 1].
  - split; [discriminate|]. inversion 1; congruence.
Qed.

Lemma lstrip_head c s x r : lstrip c s = x :: r -> x <> c.
Proof.
  induction s as [|y s IH]; cbn; [discriminate|]. destruct (char_eqb_spec y c) as [->|H]; [exact IH|].
  intros E; inversion E; subst; exact H.
Qed.

Lemma lstrip_id c x r : x <> c -> lstrip c (x :: r) = x :: r.
Proof. intros H. cbn. destruct (char_eqb_spec x c); congruence. Qed.

Lemma lstrip_idem c s : lstrip c (lstrip c s) = lstrip c s.
Proof. destruct (lstrip c s) as [|x r] eqn:E; [reflexivity|]. apply lstrip_id. now apply lstrip_head in E. Qed.

Lemma lstrip_sep c s : lstrip c (c :: s) = lstrip c s.
Proof. cbn. destruct (char_eqb_spec c c); congruence. Qed.

Lemma rstrip_snoc c s x : x <> c -> rstrip c (s ++ [x]) = s ++ [x].
Proof. intros H. unfold rstrip. rewrite rev_app_distr. cbn [rev app]. rewrite lstrip_id by exact H. cbn. now rewrite rev_involutive. Qed.

Lemma rstrip_snoc_sep c s : rstrip c (s ++ [c]) = rstrip c s.
Proof. unfold rstrip. rewrite rev_app_distr. cbn [rev app]. now rewrite lstrip_sep. Qed.

Lemma rstrip_nil c : rstrip c [] = [].
Proof. reflexivity. Qed.

Lemma starts_with_spec p s : starts_with p s = true <-> exists t, s = p ++ t.
Proof.
  revert s; induction p as [|a p IH]; intros s; cbn; [split; eauto|].
  destruct s as [|b s]; [split; [discriminate|intros (t & E); discriminate]|].
  destruct (char_eqb_spec a b) as [->|H]; cbn.
  - rewrite IH. split; intros (t & E); exists t; congruence.
  - split; [discriminate|]. intros (t & E); congruence.
Qed.

Lemma starts_with_app p s : starts_with p (p ++ s) = true.
Proof. apply starts_with_spec. eauto. Qed.

Lemma ends_with_spec p s : ends_with p s = true <-> exists t, s = t ++ p.
Proof.
  unfold ends_with. rewrite starts_with_spec. split; intros (t & E).
  - exists (rev t). rewrite <- (rev_involutive s), E, rev_app_distr, rev_involutive. reflexivity.
  - exists (rev t). subst. now rewrite rev_app_distr.
Qed.

Lemma rsplit1_None c s : rsplit1 c s = None <-> ~ In c s.
Proof.
  induction s as [|x r IH]; cbn; [tauto|]. destruct (rsplit1 c r) as [[a b]|].
  - split; [discriminate|]. intros H. exfalso. apply H. right. destruct (in_dec ascii_dec c r); [assumption|].
    exfalso. assert (H2 : Some (a, b) = None) by (apply IH; assumption). discriminate.
  - destruct (char_eqb_spec x c) as [->|Hx].
    + split; [discriminate|]. tauto.
    + split; [|reflexivity]. intros _ [H|H]; [congruence|]. now apply IH.
Qed.

Lemma rsplit1_Some c s a b : rsplit1 c s = Some (a, b) <-> s = a ++ c :: b /\ ~ In c b.
Proof.
  revert a b. induction s as [|x r IH]; intros a b; cbn.
  - split; [discriminate|]. intros [E _]. destruct a; discriminate.
  - destruct (rsplit1 c r) as [[a' b']|] eqn:E.
    + split.
      * intros H; inversion H; subst. destruct (proj1 (IH a' b) eq_refl) as [-> Hb]. now split.
      * intros [H Hb]. destruct (proj1 (IH a' b') eq_refl) as [Hr Hb'].
        destruct a as [|y a]; cbn in H; injection H as Hx Hrr.
        -- exfalso. apply Hb. rewrite <- Hrr, Hr. apply in_or_app. right. now left.
        -- assert (Hs : Some (a', b') = Some (a, b)) by (apply IH; split; assumption). injection Hs as -> ->. now rewrite Hx.
    + apply rsplit1_None in E. destruct (char_eqb_spec x c) as [->|Hx].
      * split.
        -- intros H; inversion H; subst. now split.
        -- intros [H Hb]. destruct a as [|y a]; cbn in H; inversion H; subst; [reflexivity|].
           exfalso. apply E. apply in_or_app. right. now left.
      * split; [discriminate|]. intros [H Hb]. destruct a as [|y a]; cbn in H; inversion H; subst; [congruence|].
        exfalso. apply E. apply in_or_app. right. now left.
Qed.

Lemma split1_None c s : split1 c s = None <-> ~ In c s.
Proof.
  induction s as [|x r IH]; cbn; [tauto|]. destruct (char_eqb_spec x c) as [->|Hx].
  - split; [discriminate|]. tauto.
  - destruct (split1 c r) as [[a b]|].
    + split; [discriminate|]. intros H. exfalso. assert (H2 : Some (a, b) = None) by (apply IH; tauto). discriminate.
    + split; [|reflexivity]. intros _ [H|H]; [congruence|]. now apply IH.
Qed.

Lemma split1_Some c s a b : split1 c s = Some (a, b) <-> s = a ++ c :: b /\ ~ In c a.
Proof.
  revert a b. induction s as [|x r IH]; intros a b; cbn.
  - split; [discriminate|]. intros [E _]. destruct a; discriminate.
  - destruct (char_eqb_spec x c) as [->|Hx].
    + split.
      * intros H; inversion H; subst. split; [reflexivity|auto].
      * intros [H Ha]. destruct a as [|y a]; cbn in H; inversion H; subst; [reflexivity|]. exfalso; apply Ha; now left.
    + destruct (split1 c r) as [[a' b']|].
      * split.
        -- intros H; inversion H; subst. destruct (proj1 (IH a' b) eq_refl) as [-> Ha]. split; [reflexivity|].
           intros [->|H']; [congruence|tauto].
        -- intros [H Ha]. destruct a as [|y a]; cbn in H; injection H as Hx' Hr; [congruence|].
           assert (Hs : Some (a', b') = Some (a, b)) by (apply IH; split; [exact Hr|intros Hi; apply Ha; now right]).
           injection Hs as -> ->. now rewrite Hx'.
      * split; [discriminate|]. intros [H Ha]. destruct a as [|y a]; cbn in H; inversion H; subst; [congruence|].
        assert (Hs : (None : option (str * str)) = Some (a, b)) by (apply IH; split; [reflexivity|intros Hi; apply Ha; now right]). discriminate.
Qed.

Arguments split : simpl never.
Arguments rsplit1 : simpl never.
Arguments split1 : simpl never.
Arguments lstrip : simpl never.
Arguments rstrip : simpl never.
