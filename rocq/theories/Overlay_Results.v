(** Results about single calls of the write overlay, used by the theorems of [Overlay_Props]. *)
From Coq Require Import Ascii String.
From Verif Require Import PyBase PyDict PyStr Path_Spec Overlay_Model Overlay_Spec Overlay_Proofs Overlay_Steps.

Section Bytes.
  Context {A : Type} (zero : A).

  Lemma nth_error_repeat (x : A) n k : k < n -> nth_error (repeat x n) k = Some x.
  Proof. revert k; induction n as [|n IH]; intros [|k] H; cbn; try lia; auto. apply IH; lia. Qed.

  Lemma nth_error_firstn (l : list A) n k : k < n -> nth_error (firstn n l) k = nth_error l k.
  Proof. revert l k; induction n as [|n IH]; intros [|a l] [|k] H; cbn; try lia; auto. apply IH; lia. Qed.

  Lemma nth_error_skipn (l : list A) n k : nth_error (skipn n l) k = nth_error l (n + k).
  Proof. revert l; induction n as [|n IH]; intros l; [reflexivity|]. destruct l; cbn; [now destruct k|apply IH]. Qed.

  Lemma length_resized n (c : list A) : length (resized zero n c) = n.
  Proof. unfold resized. rewrite app_length, firstn_length, repeat_length. lia. Qed.

  Lemma resized_spec n (c : list A) : after_truncate zero c n (resized zero n c).
  Proof.
    split; [apply length_resized|]. intros k H. unfold resized.
    destruct (Nat.ltb_spec k (length c)).
    - rewrite nth_error_app1 by (rewrite firstn_length; lia). now apply nth_error_firstn.
    - rewrite nth_error_app2 by (rewrite firstn_length; lia). rewrite firstn_length.
      apply nth_error_repeat. lia.
  Qed.

  Lemma spliced_spec (c : list A) offset data : after_write zero c offset data (spliced zero c offset data).
  Proof.
    unfold after_write, spliced. destruct data as [|d ds].
    - split; [reflexivity|]. intros k H. cbn [length].
      replace ((offset <=? k) && (k <? offset + 0)) with false.
      2:{ symmetry. apply andb_false_iff. destruct (Nat.leb_spec offset k); [right|now left]. apply Nat.ltb_ge. lia. }
      now rewrite (proj2 (Nat.ltb_lt k (length c)) H).
    - set (data := d :: ds). set (b := max offset (length c)).
      assert (Lf : length (firstn offset (resized zero b c)) = offset).
      { rewrite firstn_length, length_resized. unfold b; lia. }
      assert (length (firstn offset (resized zero b c) ++ data ++ skipn (offset + length data) c) =
              max (length c) (offset + length data)) as L.
      { rewrite !app_length, Lf, skipn_length. lia. }
      split; [exact L|]. rewrite L. intros k H.
      destruct (Nat.leb_spec offset k) as [H1|H1]; cbn [andb].
      + destruct (Nat.ltb_spec k (offset + length data)) as [H2|H2].
        * rewrite nth_error_app2 by lia. rewrite Lf. rewrite nth_error_app1 by lia. reflexivity.
        * rewrite nth_error_app2 by lia. rewrite Lf. rewrite nth_error_app2 by lia.
          rewrite nth_error_skipn. replace (offset + length data + (k - offset - length data)) with k by lia.
          destruct (Nat.ltb_spec k (length c)); [reflexivity|lia].
      + rewrite nth_error_app1 by lia. rewrite nth_error_firstn by lia.
        apply (proj2 (resized_spec b c)). unfold b; lia.
  Qed.
End Bytes.

Section Results.
  Context {A : Type} (zero : A).
  Notation ostate := (@ostate A).
  Variable lower : location -> option (@lnode A).
  Variable lower_names : location -> list str.
  Variable attributes : ostate -> location -> Z * Z * Z * Z.
  Hypothesis low : tree_like LDir lower lower_names.

  Implicit Types st : ostate.

  Notation visible := (visible lower).
  Notation union_lookup := (union_lookup lower).
  Notation step := (step zero lower lower_names attributes).
  Notation os_create_effect := (Overlay_Steps.os_create_effect attributes).
  Notation copy_to_effect := (Overlay_Steps.copy_to_effect lower attributes).
  Notation os_rename_effect := (Overlay_Steps.os_rename_effect attributes).
  Notation modifiable_self := (Overlay_Steps.modifiable_self lower lower_names attributes low).

  Ltac parent E W :=
    pose proof (ensure_parent_facts lower lower_names low _ _ _ _ E) as (?F1 & ?F2 & ?F3 & ?F4);
    pose proof (ensure_parent_kept lower lower_names low _ _ _ _ E W) as ?W0;
    pose proof (ensure_parent_lookup lower lower_names low _ _ _ _ E) as ?L0;
    pose proof (ensure_parent_file lower lower_names low _ _ _ _ E) as ?Fl0;
    pose proof (ensure_parent_self lower lower_names low _ _ _ _ E) as ?Sf0.

  Lemma readdir_spec st p n : well_kept st -> In n (readdir lower_names st p) <-> visible st (p ++ [n]) <> None.
  Proof.
    intros W. unfold readdir, Overlay_Model.visible. rewrite filter_In, (In_union_names lower lower_names low).
    rewrite negb_true_iff.
    assert (existsb (str_eqb n) (list_deleted st p) = is_deleted st (p ++ [n])) as ->.
    { apply eq_true_iff_eq. rewrite existsb_exists. rewrite <- (In_list_deleted st p n (proj1 (proj2 W))). split.
      - intros (x & I & E). apply str_eqb_eq in E. now subst.
      - intros I. exists n; split; [exact I|apply str_eqb_refl]. }
    destruct (is_deleted st (p ++ [n])); split; try tauto.
    - intros [_ X]; discriminate.
  Qed.

  Lemma unlink_hides st p st1 : unlink lower st p = (Ok tt, st1) -> visible st1 p = None.
  Proof.
    unfold unlink. destruct (negb (union_exists lower st p) || is_deleted st p); [discriminate|].
    destruct (if in_overlay st p then os_unlink st p else (Ok tt, st)) as [r st']. intros [= _ <-]. apply mark_hides.
  Qed.

  Lemma rmdir_hides st p st1 : rmdir lower lower_names st p = (Ok tt, st1) -> visible st1 p = None.
  Proof.
    unfold rmdir. destruct (negb (union_exists lower st p) || is_deleted st p); [discriminate|].
    destruct (negb (subset (union_names lower_names st p) (list_deleted st p))); [discriminate|].
    destruct (if in_overlay st p then os_rmdir st p else (Ok tt, st)) as [r st']. intros [= _ <-]. apply mark_hides.
  Qed.

  (** A successful rmdir only happens to a folder that shows nothing. *)
  Lemma rmdir_empty st p st1 : well_kept st -> rmdir lower lower_names st p = (Ok tt, st1) ->
    forall n, visible st (p ++ [n]) = None.
  Proof.
    intros W. unfold rmdir. destruct (negb (union_exists lower st p) || is_deleted st p); [discriminate|].
    destruct (subset (union_names lower_names st p) (list_deleted st p)) eqn:S; [|discriminate]. intros _ n.
    unfold Overlay_Model.visible. destruct (is_deleted st (p ++ [n])) eqn:D; [reflexivity|].
    destruct (union_lookup st (p ++ [n])) eqn:U; [|reflexivity]. exfalso.
    unfold subset in S. rewrite forallb_forall in S.
    assert (In n (union_names lower_names st p)) as I by (apply (In_union_names lower lower_names low); congruence).
    specialize (S n I). apply existsb_exists in S as (x & Ix & E). apply str_eqb_eq in E; subst x.
    apply (In_list_deleted st p n (proj1 (proj2 W))) in Ix. congruence.
  Qed.

  Lemma create_shows st p m i st1 : well_kept st -> create lower st p m = (Ok i, st1) ->
    visible st1 p = Some (EFile []) /\ oget (o_fs st1) p = Some (OFile i).
  Proof.
    intros W. unfold create. destruct (open_row lower st p m) as [[[]|e] st0] eqn:E; [|discriminate]. intros C.
    destruct (open_row_effect lower lower_names low _ _ _ _ _ E W) as (_ & _ & _ & _ & _ & _ & _ & D & _).
    destruct (os_create_effect _ _ _ _ C) as (R & _ & _ & X & _).
    destruct (X i eq_refl) as (Np & O & Ci & _). split; [|exact O].
    unfold Overlay_Model.visible. rewrite (deleted_rows st0 st1 p R), (D eq_refl).
    rewrite (oget_Some_lookup lower st1 p _ Np O). cbn. now rewrite Ci.
  Qed.

  Lemma mkdir_shows st p m st1 : well_kept st -> mkdir lower st p m = (Ok tt, st1) -> visible st1 p = Some EDir.
  Proof.
    intros W. unfold mkdir. destruct (open_row lower st p m) as [[[]|e] st0] eqn:E; [|discriminate]. intros C.
    destruct (open_row_effect lower lower_names low _ _ _ _ _ E W) as (_ & _ & _ & _ & _ & _ & _ & D & _).
    destruct (os_add_effect _ _ _ _ _ C) as (R & _ & _ & _ & X & _).
    destruct (X eq_refl) as (Np & O & _).
    unfold Overlay_Model.visible. rewrite (deleted_rows st0 st1 p R), (D eq_refl).
    now rewrite (oget_Some_lookup lower st1 p _ Np O).
  Qed.

  Lemma mknod_shows st p st1 : well_kept st -> mknod lower st p = (Ok tt, st1) -> is_deleted st p = false ->
    visible st1 p = Some (EFile []).
  Proof.
    intros W. unfold mknod. destruct (ensure_parent_exists lower st p) as [[u|e] st0] eqn:E; parent E W; [|discriminate].
    destruct (os_add st0 p (OFile (o_next st0))) as [[[]|e] st2] eqn:Ad; [|discriminate]. intros [= <-] D.
    destruct (os_add_effect _ _ _ _ _ Ad) as (R & _ & N & _ & X & _). destruct (X eq_refl) as (Np & O & _).
    unfold Overlay_Model.visible.
    assert (is_deleted (mkO (o_fs st2) (upd (o_ino st2) (o_next st2) []) (S (o_next st2)) (o_rows st2)) p = false) as ->.
    { unfold is_deleted in *; cbn [o_rows]. now rewrite R, F1. }
    match goal with |- union_lookup ?s p = _ => rewrite (oget_Some_lookup lower s p _ Np O) end.
    cbn. unfold content_of; cbn [o_ino]. now rewrite N, upd_same.
  Qed.

  Lemma symlink_shows st p t st1 : symlink st p t = (Ok tt, st1) -> is_deleted st p = false ->
    visible st1 p = Some (ELink t).
  Proof.
    unfold symlink. intros Ad D. destruct (os_add_effect _ _ _ _ _ Ad) as (R & _ & _ & _ & X & _).
    destruct (X eq_refl) as (Np & O & _). unfold Overlay_Model.visible. rewrite (deleted_rows st st1 p R), D.
    now rewrite (oget_Some_lookup lower _ p _ Np O).
  Qed.

  Lemma link_shows st p q st1 : link lower st p q = (Ok tt, st1) -> is_deleted st p = false ->
    visible st1 p = union_lookup st q.
  Proof.
    unfold link. destruct (negb (in_overlay st q) && union_exists lower st q); [discriminate|].
    intros H D. destruct q as [|q0 q]; [discriminate|]. assert (Nq : q0 :: q <> []) by discriminate.
    destruct (oget (o_fs st) (q0 :: q)) as [[|i|t]|] eqn:Q; try discriminate;
      destruct (os_add_effect _ _ _ _ _ H) as (R & Ei & _ & _ & X & _);
      destruct (X eq_refl) as (Np & O & O0).
    all: unfold Overlay_Model.visible; rewrite (deleted_rows st st1 p R), D;
      rewrite (oget_Some_lookup lower _ p _ Np O), (oget_Some_lookup lower _ (q0 :: q) _ Nq Q).
    - cbn. now rewrite (content_ino st st1).
    - reflexivity.
  Qed.

  (** Renaming: what the steps before the actual move leave. *)
  Lemma rename_prepared st old new r st1 : rename lower attributes st old new = (r, st1) -> r = Ok tt -> well_kept st ->
    old <> new ->
    exists st3, well_kept st3 /\ o_ino st3 = o_ino st /\
      (forall q, union_lookup st3 q = union_lookup st q) /\
      (forall q n, n <> ODir -> oget (o_fs st3) q = Some n <-> oget (o_fs st) q = Some n) /\
      (forall q, oget (o_fs st3) q = oget (o_fs st) q \/
                 (oget (o_fs st) q = None /\ oget (o_fs st3) q = Some ODir /\ lower q = Some LDir /\
                  exists b, removelast new = q ++ b)) /\
      union_exists lower st old = true /\ is_deleted st old = false /\
      is_deleted st3 new = false /\ rget (o_rows st3) old = None /\
      (forall q, q <> old -> q <> new -> rget (o_rows st3) q = rget (o_rows st) q) /\
      (if in_overlay st3 old then os_rename st3 old new = (Ok tt, st1)
       else exists st4, copy_to lower st3 old new = (Ok tt, st4) /\ st1 = mark_as_deleted lower st4 old).
  Proof.
    unfold rename. intros H -> W Ne.
    destruct (union_exists lower st old) eqn:Ex; cbn [negb orb] in H; [|discriminate].
    destruct (is_deleted st old) eqn:De; [discriminate|].
    set (st1' := with_rows st (rdel (o_rows st) new)) in *.
    assert (W1 : well_kept st1').
    { apply rows_kept; auto. apply NoDup_rdel. exact (proj1 (proj2 W)). }
    destruct (row_for lower attributes st1' old) as [r0|e] eqn:R0; [|discriminate].
    set (st2 := with_rows st1' (rset (rdel (o_rows st1') old) new r0)) in *.
    assert (W2 : well_kept st2).
    { apply rows_kept; auto. apply NoDup_rset, NoDup_rdel. exact (proj1 (proj2 W1)). }
    destruct (ensure_parent_exists lower st2 new) as [[u|e] st3] eqn:E; parent E W2; [|discriminate].
    exists st3. split; [exact W0|]. split; [now rewrite F2|]. split; [exact L0|]. split; [exact Fl0|].
    split; [|split; [reflexivity|split; [reflexivity|split; [|split; [|split]]]]].
    - intros q. destruct (F4 q) as [X|(X1 & X2 & _ & X3 & X4)]; [now left|right; auto].
    - unfold is_deleted; rewrite F1; unfold st2; cbn [o_rows with_rows]. rewrite rget_rset, loc_eqb_refl.
      rewrite (row_for_deleted lower attributes st1' old r0 R0). unfold is_deleted, st1'; cbn [o_rows with_rows].
      rewrite rget_rdel, loc_eqb_neq by exact Ne. exact De.
    - rewrite F1; unfold st2; cbn [o_rows with_rows]. rewrite rget_rset, rget_rdel, (loc_eqb_neq old new Ne).
      now rewrite loc_eqb_refl.
    - intros q N1 N2. rewrite F1; unfold st2, st1'; cbn [o_rows with_rows].
      now rewrite rget_rset, !rget_rdel, !loc_eqb_neq by assumption.
    - destruct (in_overlay st3 old); [exact H|].
      destruct (copy_to lower st3 old new) as [[[]|e] st4]; [|discriminate]. injection H as <-. exists st4; auto.
  Qed.

  (** What is at the new path afterwards. *)
  Lemma rename_shows st old new st1 e : rename lower attributes st old new = (Ok tt, st1) -> well_kept st ->
    old <> new -> visible st old = Some e -> visible st1 new = Some e.
  Proof.
    intros H W Ne V.
    destruct (rename_prepared _ _ _ _ _ H eq_refl W Ne) as (st3 & W3 & Ei & L & Fl & Fo & Ex & De & Dn & Ro & Rq & M).
    assert (U : union_lookup st old = Some e) by (unfold Overlay_Model.visible in V; now rewrite De in V).
    rewrite <- L in U.
    destruct (in_overlay st3 old) eqn:I.
    - destruct (os_rename_effect _ _ _ _ _ M W3) as (E1 & E2 & E3 & E4 & _ & E5 & _).
      destruct (E5 eq_refl) as (No & Nn & n & On & Nn' & _).
      unfold Overlay_Model.visible. rewrite (deleted_rows st3 st1 new E1), Dn.
      rewrite (oget_Some_lookup lower st1 new n Nn Nn').
      rewrite (oget_Some_lookup lower st3 old n No On) in U. rewrite <- U. f_equal. now apply entry_ino.
    - apply in_overlay_false in I as [No O].
      destruct M as (st4 & C & ->).
      rewrite mark_other by congruence.
      destruct (copy_to_effect _ _ _ _ _ C W3) as (E1 & E2 & E3 & E4 & _).
      destruct (E4 eq_refl) as (Nn & _ & o & i & Uo & On & _ & Ci).
      unfold Overlay_Model.visible. rewrite (deleted_rows st3 st4 new E1), Dn.
      rewrite (oget_Some_lookup lower st4 new _ Nn On). cbn [entry_of_overlay]. rewrite Ci.
      rewrite (oget_None_lookup lower st3 old No O) in U.
      unfold union_open in Uo. destruct old as [|a old]; [congruence|]. rewrite O in Uo.
      destruct (lower (a :: old)) as [[|c|]|]; try discriminate. injection Uo as <-. rewrite <- U. reflexivity.
  Qed.

  (** What is at the old path afterwards. *)
  Lemma rename_hides st old new st1 : rename lower attributes st old new = (Ok tt, st1) -> well_kept st ->
    old <> new -> (oget (o_fs st) old = None \/ lower old = None) -> visible st1 old = None.
  Proof.
    intros H W Ne Or.
    destruct (rename_prepared _ _ _ _ _ H eq_refl W Ne) as (st3 & W3 & Ei & L & Fl & Fo & Ex & De & Dn & Ro & Rq & M).
    destruct (in_overlay st3 old) eqn:I.
    - destruct (os_rename_effect _ _ _ _ _ M W3) as (E1 & E2 & E3 & E4 & _ & E5 & _).
      destruct (E5 eq_refl) as (No & Nn & n & On & Nn' & Gone & Sub).
      apply absent_visible; auto. destruct Or as [Or|Or]; [|exact Or].
      (* the old path was put into the overlay folder as a parent of the new one: cannot be renamed into itself *)
      exfalso. destruct (Fo old) as [X|(_ & X & _ & b & Eb)]; [congruence|].
      assert (n = ODir) by congruence. subst n. destruct (Sub eq_refl Ne) as [NB _]. apply NB.
      destruct (exists_last Nn) as (l & x & ->). rewrite removelast_last in Eb. subst l. exists (b ++ [x]). now rewrite app_assoc.
    - destruct M as (st4 & C & ->). apply mark_hides.
  Qed.

  (** Renaming a folder that only the overlay has takes along what the overlay has below it. *)
  Lemma rename_folder st old new st1 rest : rename lower attributes st old new = (Ok tt, st1) -> well_kept st ->
    old <> new -> lower old = None -> visible st old = Some EDir -> rest <> [] ->
    (forall p, at_or_below new p -> lower p = None /\ is_deleted st p = false) -> is_deleted st (old ++ rest) = false ->
    lower (old ++ rest) = None -> visible st1 (new ++ rest) = visible st (old ++ rest).
  Proof.
    intros H W Ne Lo V Nr Free Dr Lr.
    destruct (rename_prepared _ _ _ _ _ H eq_refl W Ne) as (st3 & W3 & Ei & L & Fl & Fo & Ex & De & Dn & Ro & Rq & M).
    assert (U : union_lookup st old = Some EDir) by (unfold Overlay_Model.visible in V; now rewrite De in V).
    assert (No : old <> []).
    { intros ->. destruct (in_overlay st3 []) eqn:I; [|discriminate].
      destruct (os_rename_effect _ _ _ _ _ M W3) as (_ & _ & _ & _ & _ & E5 & _). destruct (E5 eq_refl) as (X & _). congruence. }
    assert (O : oget (o_fs st) old = Some ODir).
    { unfold Overlay_Model.union_lookup in U. destruct old as [|a old]; [congruence|].
      destruct (oget (o_fs st) (a :: old)) as [[| |]|]; cbn in U; try congruence. rewrite Lo in U. discriminate. }
    destruct (in_overlay st3 old) eqn:I.
    2:{ apply in_overlay_false in I as [_ I]. destruct (Fo old) as [X|(X & _)]; congruence. }
    destruct (os_rename_effect _ _ _ _ _ M W3) as (E1 & E2 & E3 & E4 & _ & E5 & _).
    destruct (E5 eq_refl) as (_ & Nn & n & On & Nn' & Gone & Sub).
    assert (n = ODir). { destruct (Fo old) as [X|(X & _)]; congruence. } subst n.
    destruct (Sub eq_refl Ne) as [NB S].
    assert (oget (o_fs st3) (old ++ rest) = oget (o_fs st) (old ++ rest)) as O3.
    { destruct (Fo (old ++ rest)) as [X|(_ & _ & X & _)]; [exact X|congruence]. }
    assert (old ++ rest <> []) as N1 by (destruct old; [congruence|discriminate]).
    assert (new ++ rest <> []) as N2 by (destruct new; [congruence|discriminate]).
    unfold Overlay_Model.visible. rewrite Dr.
    assert (is_deleted st1 (new ++ rest) = false) as ->.
    { rewrite (deleted_rows st3 st1 _ E1). unfold is_deleted. rewrite Rq.
      - apply (proj2 (Free (new ++ rest) (ex_intro _ rest eq_refl))).
      - intros E. rewrite <- E in Lo.
        (* the old path lies below the new one: then the new one is not free *)
        assert (oget (o_fs st3) new = Some ODir) as X.
        { assert (overlay_is_dir st3 new = true) as D.
          { revert On. rewrite <- E. clear - W3 Nr Nn. intros On.
            destruct (overlay_is_dir st3 new) eqn:D; [reflexivity|].
            assert (oget (o_fs st3) (new ++ rest) = None).
            { apply nothing_below; auto. apply nondir_childless; auto. unfold overlay_is_dir in D.
              destruct new; [congruence|]. intros X; rewrite X in D; discriminate. }
            congruence. }
          unfold overlay_is_dir in D. destruct new; [congruence|]. destruct (oget (o_fs st3) (l :: new)) as [[| |]|]; congruence. }
        clear - M E X Nn Ne No NB On W3 Nr.
        unfold os_rename in M. rewrite (loc_eqb_neq old []) in M by exact No. rewrite (loc_eqb_neq new []) in M by exact Nn.
        cbn [orb] in M. rewrite On in M. destruct (overlay_is_dir st3 (removelast new)); cbn [negb] in M; [|discriminate].
        rewrite loc_eqb_neq in M by exact Ne. destruct (loc_prefix_spec old new); [discriminate|]. rewrite X in M.
        destruct (overlay_names (o_fs st3) new) as [|y l] eqn:Names; [|discriminate].
        assert (oget (o_fs st3) (new ++ rest) = None); [|congruence].
        apply nothing_below; auto. intros m. destruct (oget (o_fs st3) (new ++ [m])) eqn:Fm; [|reflexivity].
        assert (In m (overlay_names (o_fs st3) new)) as I by (apply In_overlay_names; congruence).
        rewrite Names in I; destruct I.
      - intros E. apply (f_equal (@length _)) in E. rewrite app_length in E. destruct rest; [congruence|cbn in E; lia]. }
    unfold Overlay_Model.union_lookup. rewrite (S rest), O3.
    destruct (new ++ rest) as [|a l] eqn:En; [congruence|]. destruct (old ++ rest) as [|b l'] eqn:Eo; [congruence|].
    destruct (oget (o_fs st) (b :: l')) as [n|] eqn:Q.
    - f_equal. apply entry_ino. now rewrite E2, Ei.
    - rewrite Lr, <- En, (proj1 (Free (new ++ rest) (ex_intro _ rest eq_refl))). reflexivity.
  Qed.

  (** ** Writing *)

  Lemma open_write st p i st1 : open_overlay lower st p true = (Ok i, st1) -> well_kept st -> is_deleted st p = false ->
    visible st1 p = visible st p /\ oget (o_fs st1) p = Some (OFile i) /\ visible st p = Some (EFile (content_of st1 i)).
  Proof.
    intros H W D. pose proof (step_frame zero lower lower_names attributes low st (OpOpenWrite p) p W (fun x => x)) as V.
    cbn [Overlay_Model.step] in V. rewrite H in V. unfold drop in V; cbn [snd] in V.
    assert (O : p <> [] /\ oget (o_fs st1) p = Some (OFile i)).
    { unfold open_overlay in H.
      destruct (if in_overlay st p then (Ok tt, st)
                else if negb (union_exists lower st p) then (Err ENOENT, st) else ensure_file_is_modifiable lower st p)
        as [[u|e] st']; [|discriminate].
      destruct p as [|a p]; [discriminate|]. split; [discriminate|].
      destruct (oget (o_fs st') (a :: p)) as [[| |]|] eqn:E; try discriminate. injection H as <- <-. exact E. }
    destruct O as [Np O]. split; [exact V|]. split; [exact O|]. rewrite <- V.
    assert (D1 : is_deleted st1 p = false).
    { unfold open_overlay in H. destruct (in_overlay st p).
      - destruct p; [congruence|]. destruct (oget (o_fs st) (l :: p)) as [[| |]|]; try discriminate.
        injection H as _ <-. exact D.
      - destruct (negb (union_exists lower st p)); [discriminate|].
        destruct (ensure_file_is_modifiable lower st p) as [[u|e] st'] eqn:M; [|discriminate].
        pose proof (modifiable_rows lower lower_names attributes low _ _ _ _ M W) as R.
        destruct p; [congruence|]. destruct (oget (o_fs st') (l :: p)) as [[| |]|]; try discriminate.
        injection H as _ <-. now rewrite (deleted_rows st st' _ R). }
    unfold Overlay_Model.visible. rewrite D1. now rewrite (oget_Some_lookup lower st1 p _ Np O).
  Qed.

  Lemma write_shows st i data offset st1 p : write zero st i data offset = (Ok tt, st1) -> p <> [] ->
    oget (o_fs st) p = Some (OFile i) -> is_deleted st p = false ->
    visible st p = Some (EFile (content_of st i)) /\
    visible st1 p = Some (EFile (spliced zero (content_of st i) offset data)).
  Proof.
    intros [= <-] Np O D. unfold Overlay_Model.visible. rewrite D.
    assert (is_deleted (set_ino st i (spliced zero (content_of st i) offset data)) p = false) as -> by exact D.
    rewrite (oget_Some_lookup lower st p _ Np O). split; [reflexivity|].
    match goal with |- union_lookup ?s p = _ => rewrite (oget_Some_lookup lower s p _ Np O) end.
    cbn [entry_of_overlay]. now rewrite content_set, Nat.eqb_refl.
  Qed.

  Lemma truncate_shows st p n st1 c : truncate zero lower st p n = (Ok tt, st1) -> well_kept st ->
    visible st p = Some (EFile c) -> oget (o_fs st) p = None ->
    visible st1 p = Some (EFile (resized zero n c)).
  Proof.
    unfold truncate. intros H W V O.
    destruct (ensure_file_is_modifiable lower st p) as [[[]|e] st0] eqn:M; [|discriminate].
    assert (Np : p <> []) by (intros ->; unfold Overlay_Model.visible in V; destruct (is_deleted st []); discriminate).
    pose proof (modifiable_self _ _ _ _ M W Np O p) as V0. rewrite V in V0.
    pose proof (modifiable_rows lower lower_names attributes low _ _ _ _ M W) as R.
    unfold os_truncate in H. destruct (oget (o_fs st0) p) as [[|i|]|] eqn:O0; try discriminate.
    injection H as <-.
    assert (D : is_deleted st0 p = false).
    { destruct (is_deleted st0 p) eqn:D; [|reflexivity]. unfold Overlay_Model.visible in V0. rewrite D in V0. discriminate. }
    unfold Overlay_Model.visible in *. rewrite D in V0.
    assert (is_deleted (set_ino st0 i (resized zero n (content_of st0 i))) p = false) as -> by exact D.
    match goal with |- union_lookup ?s p = _ => rewrite (oget_Some_lookup lower s p _ Np O0) end.
    rewrite (oget_Some_lookup lower st0 p _ Np O0) in V0. cbn [entry_of_overlay] in *.
    injection V0 as Ec. rewrite content_set, Nat.eqb_refl, Ec. reflexivity.
  Qed.

  (** Truncating succeeds on every visible file of an archive whose folder exists. *)
  Lemma truncate_lengths st p n st1 c : truncate zero lower st p n = (Ok tt, st1) -> well_kept st ->
    visible st1 p = Some (EFile c) -> length c = n.
  Proof.
    unfold truncate. intros H W V.
    destruct (ensure_file_is_modifiable lower st p) as [[[]|e] st0] eqn:M; [|discriminate].
    unfold os_truncate in H. destruct (oget (o_fs st0) p) as [[|i|]|] eqn:O0; try discriminate. injection H as <-.
    assert (Np : p <> []).
    { intros ->. unfold Overlay_Model.visible in V. destruct (is_deleted _ []); discriminate. }
    unfold Overlay_Model.visible in V.
    destruct (is_deleted (set_ino st0 i (resized zero n (content_of st0 i))) p); [discriminate|].
    match type of V with Overlay_Model.union_lookup _ ?s p = _ => rewrite (oget_Some_lookup lower s p _ Np O0) in V end.
    cbn [entry_of_overlay] in V. rewrite content_set, Nat.eqb_refl in V. injection V as <-. apply length_resized.
  Qed.

  (** ** Attributes *)
  Lemma attributes_shown st p c st1 : set_attributes lower attributes st p c = (Ok tt, st1) ->
    (forall q, attributes st1 q = attributes st q) ->
    forall q i, getattr lower attributes st q = Some i -> well_kept st ->
    getattr lower attributes st1 q =
      Some (if loc_eqb q p
            then let '(t, m, u, g) := i in
                 match c with
                 | SetMode m' => (t, m', u, g)
                 | SetOwner u' g' => (t, m, match u' with Some x => x | None => u end, match g' with Some x => x | None => g end)
                 | SetMtime t' => (t', m, u, g)
                 end
            else i).
  Proof.
    intros H At q i G W. unfold getattr in *.
    assert (visible st1 q = visible st q) as V.
    { pose proof (step_frame zero lower lower_names attributes low st (OpAttributes p c) q W (fun x => x)) as V.
      cbn [Overlay_Model.step] in V. rewrite H in V. exact V. }
    rewrite V. destruct (visible st q) as [v|]; [|discriminate]. injection G as <-. f_equal. rewrite At.
    unfold set_attributes in H. destruct (row_for lower attributes st p) as [r|e] eqn:R; [|discriminate].
    assert (Er : o_rows st1 = rset (o_rows st) p (apply_change r c)).
    { destruct c as [m|[u|] [g|]|t]; try discriminate; injection H as <-; reflexivity. }
    unfold update_file_info. rewrite Er, rget_rset.
    destruct (loc_eqb_spec q p) as [->|N]; [|reflexivity].
    unfold row_for in R. destruct (attributes st p) as [[[t m] u] g].
    destruct (rget (o_rows st) p) as [r'|].
    - injection R as ->. destruct r as [[rt|] [rm|] [ru|] [rg|] rd], c as [m'|[u'|] [g'|]|t']; reflexivity.
    - destruct (union_exists lower st p); [|discriminate]. injection R as <-.
      destruct c as [m'|[u'|] [g'|]|t']; reflexivity.
  Qed.
End Results.
