From Coq Require Import Ascii String.
From Verif Require Import PyBase PyDict PyStr PyInt Path_Model Path_Spec Path_Proofs Subvol_Model Subvol_Spec Subvol_Proofs Multi_Model.

Section Multi.
  Context {S : Type}.
  Implicit Types d : list (str * S).

  Lemma suffixed_inj key a b : suffixed key a = suffixed key b -> a = b.
  Proof. unfold suffixed. intros H. apply app_inv_head in H. injection H as H. apply py_str_inj in H. lia. Qed.

  Lemma suffixed_proper key n : proper_name key -> proper_name (suffixed key n).
  Proof.
    intros (N1 & N2 & N3 & N4). unfold suffixed. assert (forall c, In c (py_str (Z.of_nat n)) -> is_digit c = true) as D.
    { pose proof (proj2 (nonneg_chars (Z.of_nat n) ltac:(lia))) as F. now rewrite Forall_forall in F. }
    pose proof (py_str_nonempty (Z.of_nat n)) as NE.
    repeat split.
    - destruct key; discriminate.
    - destruct key as [|x [|y k]]; [congruence| |discriminate]. discriminate.
    - intros E. destruct key as [|x [|y [|z k]]]; [congruence| |discriminate|discriminate].
      cbn in E. injection E as _ E. congruence.
    - rewrite !in_app_iff. intros [H|[H|H]]; [contradiction| |].
      + destruct H as [H|[]]. discriminate.
      + apply D in H. discriminate.
  Qed.

  (** The loop finds a free name: there are more candidates than keys. *)
  Lemma free_suffix_some fuel d key suffix (used : list str) : NoDup used -> incl used (dkeys d) ->
    (forall k, suffix <= k -> ~ In (suffixed key k) used) -> length d < fuel + length used ->
    exists n, free_suffix fuel d key suffix = Some n /\ suffix <= n /\ ~ In (suffixed key n) (dkeys d).
  Proof.
    revert suffix used. induction fuel as [|f IH]; intros suffix used ND I F L; cbn [free_suffix].
    - exfalso. pose proof (NoDup_incl_length ND I). unfold dkeys in H. rewrite map_length in H. lia.
    - destruct (dmem str_eqb d (suffixed key suffix)) eqn:M.
      + destruct (IH (suffix + 1) (suffixed key suffix :: used)) as (n & E & Le & X).
        * constructor; [apply F; lia|exact ND].
        * intros x [<-|Hx]; [now apply (dmem_In str_eqb str_eqb_spec)|now apply I].
        * intros k Hk [E|Hi]; [apply suffixed_inj in E; lia|]. apply (F k); [lia|exact Hi].
        * cbn [length]. lia.
        * exists n. split; [exact E|]. split; [lia|exact X].
      + exists suffix. split; [reflexivity|]. split; [lia|]. intros H. apply (dmem_In str_eqb str_eqb_spec) in H. congruence.
  Qed.

  Lemma dset_new d k s : ~ In k (dkeys d) -> dset str_eqb d k s = d ++ [(k, s)].
  Proof.
    induction d as [|[k0 v0] r IH]; intros N; [reflexivity|]. cbn in N |- *.
    destruct (str_eqb_spec k k0) as [E|E]; [subst; tauto|]. rewrite IH; [reflexivity|tauto].
  Qed.

  (** How the names are chosen, one by one. *)
  Inductive chosen : list str -> list str -> list str -> Prop :=
  | chosen_nil used : chosen used [] []
  | chosen_same used key keys names : ~ In key used -> chosen (used ++ [key]) keys names -> chosen used (key :: keys) (key :: names)
  | chosen_new used key n keys names : In key used -> 1 <= n -> ~ In (suffixed key n) used ->
      chosen (used ++ [suffixed key n]) keys names -> chosen used (key :: keys) (suffixed key n :: names).

  Lemma unique_keys_spec sources : forall d suffix, 1 <= suffix -> exists names,
    unique_keys sources d suffix = Ok (d ++ combine names (map snd sources)) /\ chosen (dkeys d) (map fst sources) names.
  Proof.
    induction sources as [|[key s] r IH]; intros d suffix Ls; cbn [unique_keys map fst snd].
    - exists []. cbn. rewrite app_nil_r. split; [reflexivity|constructor].
    - destruct (dmem str_eqb d key) eqn:M.
      + apply (dmem_In str_eqb str_eqb_spec) in M.
        destruct (free_suffix_some (length d + 1) d key suffix []) as (n & E & Le & X); [constructor|intros x []|auto|cbn; lia|].
        rewrite E. rewrite dset_new by exact X. destruct (IH (d ++ [(suffixed key n, s)]) n) as (names & E2 & C); [lia|].
        exists (suffixed key n :: names). split.
        * rewrite E2. cbn [combine]. now rewrite <- app_assoc.
        * apply chosen_new; [exact M|lia|exact X|]. unfold dkeys in *. now rewrite map_app in C.
      + assert (~ In key (dkeys d)) as X by (intros H; apply (dmem_In str_eqb str_eqb_spec) in H; congruence).
        rewrite dset_new by exact X. destruct (IH (d ++ [(key, s)]) suffix Ls) as (names & E2 & C).
        exists (key :: names). split.
        * rewrite E2. cbn [combine]. now rewrite <- app_assoc.
        * apply chosen_same; [exact X|]. unfold dkeys in *. now rewrite map_app in C.
  Qed.

  Lemma chosen_length used keys names : chosen used keys names -> length names = length keys.
  Proof. induction 1; cbn [length]; congruence. Qed.

  Lemma chosen_NoDup used keys names : chosen used keys names -> NoDup used -> NoDup (used ++ names).
  Proof.
    induction 1 as [used|used key keys names X C IH|used key n keys names M L X C IH]; intros ND.
    - now rewrite app_nil_r.
    - change (key :: names) with ([key] ++ names). rewrite app_assoc. apply IH. now apply NoDup_snoc.
    - change (suffixed key n :: names) with ([suffixed key n] ++ names). rewrite app_assoc. apply IH. now apply NoDup_snoc.
  Qed.

  Lemma chosen_proper used keys names : chosen used keys names -> Forall proper_name keys -> Forall proper_name names.
  Proof.
    induction 1; intros F; inversion F; subst; constructor; auto. now apply suffixed_proper.
  Qed.

  Lemma chosen_nth used keys names : chosen used keys names -> forall i key, nth_error keys i = Some key ->
    exists name, nth_error names i = Some name /\
      (name = key /\ ~ In key (used ++ firstn i names) \/
       In key (used ++ firstn i names) /\ exists n, 1 <= n /\ name = suffixed key n).
  Proof.
    induction 1 as [used|used key keys names X C IH|used key n keys names M L X C IH]; intros i key0 E.
    - destruct i; discriminate.
    - destruct i as [|i]; cbn [nth_error] in *.
      + injection E as <-. exists key. split; [reflexivity|]. left. cbn [firstn]. rewrite app_nil_r. auto.
      + destruct (IH i key0 E) as (name & E1 & H). exists name. split; [exact E1|]. cbn [firstn].
        now rewrite <- app_assoc in H.
    - destruct i as [|i]; cbn [nth_error] in *.
      + injection E as <-. exists (suffixed key n). split; [reflexivity|]. right. cbn [firstn]. rewrite app_nil_r. eauto.
      + destruct (IH i key0 E) as (name & E1 & H). exists name. split; [exact E1|]. cbn [firstn].
        now rewrite <- app_assoc in H.
  Qed.

  (** Mounting under distinct proper names. *)
  Lemma denotes_name k : proper_name k -> denotes k = [k].
  Proof.
    intros H. unfold denotes. destruct H as (H1 & H2 & H3 & H4). rewrite split_no_sep by exact H4. cbn [fold_left].
    now rewrite enter_name.
  Qed.

  Lemma mount_each_spec l : forall n (t : table S), related n t -> tidy n -> Forall (fun e => length (fst e) = 1) t ->
    Forall proper_name (map fst l) -> NoDup (map fst l) -> (forall k, In k (map fst l) -> ~ In [k] (map fst t)) ->
    exists n', mount_each l n = Ok n' /\ related n' (rev (map (fun e => ([fst e], snd e)) l) ++ t) /\ tidy n'.
  Proof.
    induction l as [|[k s] l IH]; intros n t R T One P ND F; cbn [mount_each map fst snd rev] in *.
    - exists n. auto.
    - inversion P; subst. inversion ND; subst. pose proof (mount_spec k s n t R) as M. rewrite denotes_name in M by assumption.
      destruct (mount k s n) as [n1 a]. destruct M as (M1 & M2).
      assert (available t [k]) as Av.
      { split; [discriminate|]. intros mp x Hin. assert (length mp = 1) as Lm.
        { rewrite Forall_forall in One. apply (One _ Hin). }
        assert (mp <> [k]) as Nk.
        { intros ->. apply (F k); [now left|]. apply in_map_iff. exists ([k], x). auto. }
        destruct mp as [|m [|? ?]]; try discriminate Lm. split; intros [rest E]; injection E; intros; subst; congruence. }
      destruct a as [[|]|e].
      2,3: (exfalso; destruct (M2 ltac:(discriminate)) as (_ & M3); exact (M3 T Av)).
      destruct (M1 eq_refl) as (_ & R1 & T1).
      destruct (IH n1 (([k], s) :: t)) as (n2 & E2 & R2 & T2); auto.
      + intros x Hx [E|Hi]; [injection E as ->; contradiction|]. apply (F x); [now right|exact Hi].
      + exists n2. split; [exact E2|]. split; [|exact T2]. now rewrite <- app_assoc.
  Qed.

  Lemma map_fst_combine {X Y} (a : list X) (b : list Y) : length a = length b -> map fst (combine a b) = a.
  Proof. revert b. induction a as [|x a IH]; intros [|y b] L; try discriminate L; [reflexivity|]. cbn. rewrite IH; [reflexivity|]. now injection L. Qed.
End Multi.

(** A name that cannot be mounted. *)
Lemma mount_each_bad {S} l : forall (n : node S) r, mount_each l n = Ok r -> forall k s, In (k, s) l -> snd (parent_and_name k) <> [].
Proof.
  induction l as [|[k0 s0] l IH]; intros n r H k s Hin; [destruct Hin|]. cbn [mount_each] in H.
  destruct (mount k0 s0 n) as [n1 a] eqn:M. destruct a as [b|e]; [|discriminate].
  destruct Hin as [E|Hin]; [|now apply (IH n1 r H k s)]. injection E as -> ->.
  unfold mount in M. destruct (parent_and_name k) as [parent name]. cbn [snd]. intros ->.
  rewrite str_eqb_refl in M. discriminate.
Qed.
