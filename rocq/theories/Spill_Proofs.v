(** Proofs about moving an index from memory to the disk. *)
From Coq Require Import Ascii String.
From Verif Require Import PyBase PyStr Locate_Model Locate_Spec Locate_Proofs Spill_Model.
Open Scope Z_scope.

Section Databases.
  Context {C R : Type}.
  Notation index := (index (C := C) (R := R)).
  Notation database := (database (R := R)).

  Lemma set_nth_length n (d : database) l : (n < List.length l)%nat -> List.length (set_nth n d l) = List.length l.
  Proof. intros H. unfold set_nth. rewrite app_length, firstn_length. cbn [List.length]. rewrite skipn_length. lia. Qed.
  Lemma set_nth_same n (d : database) l : (n < List.length l)%nat -> nth_error (set_nth n d l) n = Some d.
  Proof. intros H. unfold set_nth. rewrite nth_error_app2 by (rewrite firstn_length; lia). rewrite firstn_length. replace (n - Nat.min n (List.length l))%nat with 0%nat by lia. reflexivity. Qed.
  Lemma nth_error_skip {A} (l : list A) : forall k i, nth_error (skipn k l) i = nth_error l (k + i).
  Proof. induction l as [|x l IH]; intros [|k] i; cbn; try reflexivity; [destruct i; reflexivity|apply IH]. Qed.
  Lemma nth_error_first {A} (l : list A) : forall k i, (i < k)%nat -> nth_error (firstn k l) i = nth_error l i.
  Proof. induction l as [|x l IH]; intros [|k] [|i] H; cbn; try reflexivity; try lia. apply IH. lia. Qed.
  Lemma set_nth_other n m (d : database) l : (n < List.length l)%nat -> n <> m -> nth_error (set_nth n d l) m = nth_error l m.
  Proof.
    intros H N. unfold set_nth. destruct (Nat.lt_ge_cases m n) as [L|L].
    - rewrite nth_error_app1 by (rewrite firstn_length; lia). now apply nth_error_first.
    - rewrite nth_error_app2 by (rewrite firstn_length; lia). rewrite firstn_length. replace (m - Nat.min n (List.length l))%nat with (S (m - S n)) by lia. cbn [nth_error].
      rewrite nth_error_skip. f_equal. lia.
  Qed.

  (** an index that works: its connection is open and holds [rows] *)
  Definition holds (st : index) (rows : list R) (p : str) : Prop :=
    exists n, current st = Some n /\ nth_error (databases st) n = Some (mkDatabase rows true) /\ path st = Some p.

  Lemma insert_holds (st : index) rows p new : holds st rows p ->
    exists st', insert st new = (Ok tt, st') /\ holds st' (rows ++ new) p /\ files st' = files st /\ prefers_memory st' = prefers_memory st /\ inserted st' = inserted st.
  Proof.
    intros (n & Hc & Hn & Hp). unfold insert. rewrite Hc, Hn. cbn [is_open content]. eexists. split; [reflexivity|]. cbn [files prefers_memory inserted]. repeat split. exists n. cbn. split; [reflexivity|]. split; [|exact Hp].
    apply set_nth_same. apply nth_error_Some. congruence.
  Qed.

  Lemma close_current_new (st1 : index) old d rest : databases st1 = rest ++ [d] -> (old < List.length rest)%nat ->
    nth_error (databases (close st1 (List.length rest))) old = nth_error rest old.
  Proof.
    intros E L. unfold close. rewrite E. assert (nth_error (rest ++ [d]) (List.length rest) = Some d) as -> by (rewrite nth_error_app2, Nat.sub_diag by lia; reflexivity). cbn [databases].
    rewrite set_nth_other by (rewrite ?app_length; cbn; lia). now rewrite nth_error_app1.
  Qed.

End Databases.

Section Spill.
  Context {C R : Type}.
  Variable size : C -> Z.
  Variable write : str -> write_result C.
  Variable sql_usable : str -> bool.
  Variable candidates : list str.
  Variable minimum : Z.
  Notation index := (index (C := C) (R := R)).
  Notation database := (database (R := R)).
  Notation set_infos := (set_file_infos size write sql_usable candidates minimum).
  Notation find fs := (find_usable size write sql_usable fs candidates).

  (** moving works if there is no candidate at all or a usable one *)
  Lemma reload_holds (st : index) rows : holds st rows memory -> prefers_memory st = false ->
    candidates = [] \/ (exists p, fst (find (files st)) = Some p) ->
    exists st' p, reload_on_disk size write sql_usable candidates st = (Ok tt, st') /\ holds st' rows p /\ prefers_memory st' = false /\ inserted st' = inserted st /\
      (candidates = [] -> p = memory /\ files st' = files st) /\ (candidates <> [] -> Some p = fst (find (files st)) /\ files st' = snd (find (files st))).
  Proof.
    intros (n & Hc & Hn & Hp) Hm K. unfold reload_on_disk. rewrite Hp, Hc. cbn [negb]. rewrite str_eqb_refl. cbn [negb].
    assert (n < List.length (databases st))%nat as Ln by (apply nth_error_Some; congruence).
    unfold open_writable. cbn [prefers_memory files].
    assert (forall fs p, exists st' p',
        (match loaded (create_database (mkIndex (files st) (databases st) (Some n) (Some memory) false (inserted st)) fs p) with
         | Err e => (Err e, create_database (mkIndex (files st) (databases st) (Some n) (Some memory) false (inserted st)) fs p)
         | Ok true => (Ok tt, create_database (mkIndex (files st) (databases st) (Some n) (Some memory) false (inserted st)) fs p)
         | Ok false => (Err RatarmountError, create_database (mkIndex (files st) (databases st) (Some n) (Some memory) false (inserted st)) fs p)
         end) = (Ok tt, create_database (mkIndex (files st) (databases st) (Some n) (Some memory) false (inserted st)) fs p) /\
        (let st1 := create_database (mkIndex (files st) (databases st) (Some n) (Some memory) false (inserted st)) fs p in
          if same_path (path st1) (Some memory)
          then (Ok tt, let st2 := match current st1 with Some m => close st1 m | None => st1 end in mkIndex (files st2) (databases st2) (Some n) (Some memory) (prefers_memory st2) (inserted st2))
          else backup st1 n) = (Ok tt, st') /\ holds st' rows p' /\ p' = p /\ prefers_memory st' = false /\ inserted st' = inserted st /\ files st' = fs) as Core.
    { intros fs p. unfold create_database. cbn [databases loaded current prefers_memory inserted path files].
      assert (nth_error (databases st ++ [mkDatabase [] true]) (List.length (databases st)) = Some (mkDatabase (R := R) [] true)) as En by (rewrite nth_error_app2, Nat.sub_diag by lia; reflexivity). unfold loaded. cbn [current databases]. rewrite En. cbn [is_open].
      destruct (str_eqb_spec p memory) as [->|Np].
      - do 2 eexists. split; [reflexivity|]. split; [cbn [same_path]; rewrite str_eqb_refl; reflexivity|]. set (st1 := mkIndex fs _ _ _ _ _).
        assert (prefers_memory (close st1 (List.length (databases st))) = false /\ inserted (close st1 (List.length (databases st))) = inserted st /\ files (close st1 (List.length (databases st))) = fs) as (-> & -> & ->).
        { unfold close. destruct (nth_error (databases st1) (List.length (databases st))); repeat split. }
        split; [|easy]. exists n. cbn [current databases path]. repeat split. rewrite (close_current_new st1 n (mkDatabase [] true) (databases st) eq_refl Ln). exact Hn.
      - do 2 eexists. split; [reflexivity|]. cbn [same_path]. rewrite (proj2 (str_eqb_neq p memory) Np). split.
        + unfold backup. cbn [databases current]. rewrite nth_error_app1 by exact Ln. rewrite Hn. cbn [is_open content]. reflexivity.
        + unfold close. cbn [databases files path prefers_memory inserted current].
          assert (List.length (databases st) < List.length (databases st ++ [mkDatabase (R := R) [] true]))%nat as L1 by (rewrite app_length; cbn; lia).
          rewrite set_nth_other by lia. rewrite nth_error_app1 by exact Ln. rewrite Hn. cbn [content files prefers_memory inserted]. split; [|easy].
          exists (List.length (databases st)). cbn [current databases path]. split; [reflexivity|]. split; [|reflexivity]. rewrite set_nth_other by (rewrite ?set_nth_length; lia). now apply set_nth_same. }
    destruct candidates as [|c cs] eqn:Ec.
    - destruct (Core (files st) memory) as (st' & p' & E1 & E2 & H1 & -> & H2 & H3 & H4). cbn [prefers_memory files] in *. exists st', memory. rewrite E1. cbn [fst snd] in E2 |- *.
      destruct (same_path _ _); (split; [exact E2|]); (split; [exact H1|]); repeat split; try assumption; try congruence.
    - destruct K as [K|(p & K)]; [discriminate|]. rewrite <- Ec in *. destruct (find_usable size write sql_usable (files st) candidates) as [[p'|] fs] eqn:Ef; cbn [fst] in K; [|discriminate]. injection K as ->.
      destruct (Core fs p) as (st' & p' & E1 & E2 & H1 & -> & H2 & H3 & H4). exists st', p. rewrite E1. cbn [fst snd] in E2 |- *.
      destruct (same_path _ _); (split; [exact E2|]); (split; [exact H1|]); repeat split; try assumption; try congruence.
  Qed.

  Definition moved (fs : filesystem (C := C)) (p : str) (fs' : filesystem) : Prop :=
    (candidates = [] /\ p = memory /\ fs' = fs) \/ (candidates <> [] /\ Some p = fst (find fs) /\ fs' = snd (find fs)).
  Definition inv (fs : filesystem) (st : index) (rows : list R) : Prop :=
    inserted st = len rows /\
    ((prefers_memory st = true /\ holds st rows memory /\ files st = fs /\ len rows <= minimum) \/
     (prefers_memory st = false /\ minimum < len rows /\ exists p, holds st rows p /\ moved fs p (files st))).

  Lemma step_inv fs st rows b : candidates = [] \/ (exists p, fst (find fs) = Some p) -> inv fs st rows ->
    exists st', set_infos st b = (Ok tt, st') /\ inv fs st' (rows ++ b).
  Proof.
    intros K (Hi & H). unfold set_file_infos. destruct b as [|r0 br] eqn:Eb; [rewrite app_nil_r; exists st; split; [reflexivity|split; assumption]|]. rewrite <- Eb in *. assert (0 < len b) as Lb by (rewrite Eb; rewrite len_cons; pose proof (len_nonneg br); lia). clear Eb r0 br.
    cbn [inserted path prefers_memory]. assert (len (rows ++ b) = len rows + len b) as La by apply len_app.
    destruct H as [(Hm & Hh & Hf & Hl)|(Hm & Hl & p & Hh & Hv)]; rewrite Hm, Hi.
    - pose proof Hh as (n & Hc & Hn & Hp). rewrite Hp. cbn [same_path]. rewrite str_eqb_refl, !andb_true_r. destruct (Z.ltb_spec minimum (len rows + len b)) as [L|L].
      + set (st1 := mkIndex (files st) (databases st) (current st) (Some memory) false (len rows + len b)).
        destruct (reload_holds st1 rows) as (st2 & p & E & H2 & M2 & I2 & P1 & P2).
        { exists n. subst st1. cbn. repeat split; assumption. } { reflexivity. } { subst st1. cbn [files]. rewrite Hf. exact K. }
        cbn [files databases current path inserted] in E |- *. subst st1. rewrite E. clear E. set (st1 := mkIndex (files st) (databases st) (current st) (Some memory) false (len rows + len b)) in *. destruct (insert_holds st2 rows p b H2) as (st3 & E3 & H3 & F3 & M3 & I3). exists st3. split; [exact E3|]. split; [rewrite I3, I2; subst st1; cbn; lia|]. right.
        split; [congruence|]. split; [lia|]. exists p. split; [exact H3|]. rewrite F3. subst st1. cbn [files] in P1, P2. rewrite Hf in P1, P2. unfold moved. destruct candidates as [|c cs] eqn:Ec; [left; destruct (P1 eq_refl); auto|right]. destruct (P2 ltac:(discriminate)). split; [discriminate|auto].
      + set (st1 := mkIndex _ _ _ _ _ _). destruct (insert_holds st1 rows memory b) as (st3 & E3 & H3 & F3 & M3 & I3); [exists n; subst st1; cbn; repeat split; assumption|]. exists st3. split; [exact E3|]. split; [rewrite I3; subst st1; cbn; lia|]. left.
        rewrite M3, F3. subst st1. cbn [files prefers_memory]. repeat split; try assumption. lia.
    - rewrite andb_false_r. pose proof Hh as (n & Hc & Hn & Hp). set (st1 := mkIndex _ _ _ _ _ _). destruct (insert_holds st1 rows p b) as (st3 & E3 & H3 & F3 & M3 & I3); [exists n; subst st1; cbn; repeat split; assumption|]. exists st3. split; [exact E3|].
      split; [rewrite I3; subst st1; cbn; lia|]. right. rewrite M3, F3. subst st1. cbn [files prefers_memory]. split; [reflexivity|]. split; [lia|]. exists p. auto.
  Qed.

  Lemma create_inv fs batches : candidates = [] \/ (exists p, fst (find fs) = Some p) -> forall st rows, inv fs st rows ->
    exists st', create_index size write sql_usable candidates minimum st batches = (Ok tt, st') /\ inv fs st' (rows ++ concat batches).
  Proof.
    intros K. induction batches as [|b bs IH]; intros st rows H; cbn [create_index concat].
    - exists st. rewrite app_nil_r. auto.
    - destruct (step_inv fs st rows b K H) as (st1 & -> & H1). destruct (IH st1 _ H1) as (st2 & -> & H2). exists st2. split; [reflexivity|]. now rewrite app_assoc.
  Qed.

  Lemma holds_indexed (st : index) rows p : holds st rows p -> indexed st = Some rows /\ path st = Some p.
  Proof. intros (n & Hc & Hn & Hp). unfold indexed. rewrite Hc, Hn. auto. Qed.

  Lemma first_inv fs : 0 <= minimum -> exists st, open_writable size write sql_usable candidates (new_index fs true) = (Ok tt, st) /\ inv fs st [].
  Proof.
    intros H. unfold open_writable, new_index. cbn [prefers_memory]. assert (forall A (x y : A), match candidates with [] => x | _ :: _ => x end = x) as X by (intros; now destruct candidates).
    exists (create_database (mkIndex fs [] None None true 0) fs memory). split; [destruct candidates; reflexivity|]. split; [reflexivity|]. left. split; [reflexivity|]. split; [now exists 0%nat|]. split; [reflexivity|exact H].
  Qed.
End Spill.
