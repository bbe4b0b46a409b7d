From Coq Require Import Ascii String.
From Verif Require Import PyBase PyDict PyStr PyInt Path_Spec Path_Proofs FileInfo Union_Model Union_Spec Version_Model Version_Spec.
Local Open Scope Z_scope.

Lemma drop_end_app s t : drop_end (length t) (s ++ t) = s.
Proof. unfold drop_end. rewrite app_length. replace (length s + length t - length t)%nat with (length s) by lia. rewrite firstn_app, Nat.sub_diag, firstn_all. now rewrite app_nil_r. Qed.

Lemma versions_suffix n : n <> [] -> ends_with dot_versions (n ++ $".versions") && (length dot_versions <? length (n ++ $".versions"))%nat = true.
Proof.
  intros H. apply andb_true_iff. split; [apply ends_with_spec; eauto|]. apply Nat.ltb_lt. rewrite app_length. unfold dot_versions. destruct n; [congruence|]. cbn [length]. lia.
Qed.

Lemma is_digit_slash z : ~ In slash (py_str z).
Proof. intros H. apply py_str_char in H as [H|H]; discriminate. Qed.

Section Proofs.
  Context {U : Type}.
  Variable m : source U.

  Lemma folder_child loc n : folder_of loc ++ slash :: n = written (loc ++ [n]).
  Proof. destruct loc as [|x r]; [reflexivity|]. unfold written. rewrite (join_app _ (x :: r) [n]) by discriminate. reflexivity. Qed.

  Lemma folder_snoc loc n : folder_of (loc ++ [n]) = written (loc ++ [n]).
  Proof. destruct loc; reflexivity. Qed.

  Lemma decode_steps steps : forall loc v, good_steps m loc steps -> steps <> [] ->
    decode_parts m (mkD (folder_of loc) false v) (flat_map spelled steps) =
    Some (mkD (written (loc ++ map name_of steps)) false (Some (version_of (last steps (Plain []))))).
  Proof.
    induction steps as [|s steps IH]; intros loc v G Hne; [congruence|].
    assert (Hgo : forall st, st = mkD (folder_of (loc ++ [name_of s])) false (Some (version_of s)) -> good_steps m (loc ++ [name_of s]) steps ->
      decode_parts m st (flat_map spelled steps) = Some (mkD (written (loc ++ map name_of (s :: steps))) false (Some (version_of (last (s :: steps) (Plain [])))))).
    { intros st -> Hg. destruct steps as [|s2 steps].
      - cbn [flat_map decode_parts map last]. now rewrite folder_snoc.
      - rewrite IH by (assumption || discriminate). cbn [map]. rewrite <- app_assoc. reflexivity. }
    inversion G as [|? n rest Hp [i Hi] Hr|? n k rest Hp [i Hi] Hv Hr]; subst; cbn [flat_map spelled app decode_parts].
    - unfold decode_step at 1. cbn [d_special d_path]. rewrite folder_child, Hi. apply Hgo; [|assumption]. cbn [name_of version_of]. now rewrite folder_snoc.
    - unfold decode_step at 1. cbn [d_special d_path]. rewrite folder_child.
      destruct (s_lookup m (written (loc ++ [n ++ $".versions"])) 0) as [j|] eqn:E; [exfalso; apply Hv; now exists j|].
      rewrite versions_suffix by apply Hp. unfold decode_step at 1. cbn [d_special d_path]. rewrite py_int_str, str_eqb_refl.
      apply Hgo; [|assumption]. f_equal. cbn [name_of]. rewrite folder_snoc, <- !folder_child.
      replace (folder_of loc ++ slash :: n ++ $".versions") with ((folder_of loc ++ slash :: n) ++ $".versions") by (now rewrite <- app_assoc).
      unfold dot_versions. apply drop_end_app.
  Qed.

  Lemma decode_app st a b : decode_parts m st (a ++ b) = match decode_parts m st a with Some st' => decode_parts m st' b | None => None end.
  Proof. revert st. induction a as [|p a IH]; intros st; cbn; [reflexivity|]. destruct (decode_step m st p); auto. Qed.

  Lemma split_names (l : list str) : Forall (fun p => p <> [] /\ ~ In slash p) l -> l <> [] -> split slash (lstrip slash (written l)) = l.
  Proof.
    intros Hall Hn. unfold written. rewrite lstrip_sep.
    assert (Hl : lstrip slash (join $"/" l) = join $"/" l).
    { destruct Hall as [|x r [Hx1 Hx2] _]; [reflexivity|]. destruct x as [|c x]; [congruence|].
      assert (Hc : c <> slash) by (intros ->; apply Hx2; now left). destruct r; cbn [join app]; now apply lstrip_id. }
    rewrite Hl. apply split_join; [assumption|]. eapply Forall_impl; [|exact Hall]. now intros p [_ H].
  Qed.

  Lemma versions_proper n : proper_name n -> proper_name (n ++ $".versions").
  Proof.
    intros (H1 & H2 & H3 & H4). repeat split.
    - destruct n; discriminate.
    - destruct n as [|a [|b n]]; [congruence|discriminate|discriminate].
    - destruct n as [|a [|b [|c n]]]; [congruence|discriminate|discriminate|discriminate].
    - rewrite in_app_iff. intros [H|H]; [contradiction|]. cbn in H. intuition discriminate.
  Qed.
  Lemma number_proper k : proper_name (py_str k).
  Proof.
    repeat split; [apply py_str_nonempty| | |apply is_digit_slash]; intros E; (assert (H : In "."%char (py_str k)) by (rewrite E; now left)); apply py_str_char in H as [H|H]; discriminate.
  Qed.
  Lemma proper_split p : proper_name p -> p <> [] /\ ~ In slash p.
  Proof. intros H. split; apply H. Qed.
  Lemma spelled_proper steps loc : good_steps m loc steps -> Forall proper_name (flat_map spelled steps).
  Proof.
    intros G. induction G as [loc|loc n rest Hp He G IH|loc n k rest Hp He Hv G IH]; cbn [flat_map spelled app].
    - constructor.
    - now constructor.
    - constructor; [now apply versions_proper|constructor; [apply number_proper|assumption]].
  Qed.
  Lemma spelled_names steps loc : good_steps m loc steps -> Forall (fun p => p <> [] /\ ~ In slash p) (flat_map spelled steps).
  Proof. intros G. eapply Forall_impl; [apply proper_split|]. eapply spelled_proper; eassumption. Qed.
  Lemma versions_name n : proper_name n -> n ++ $".versions" <> [] /\ ~ In slash (n ++ $".versions").
  Proof. intros H. apply proper_split. now apply versions_proper. Qed.

  Lemma decode_spelled steps : good_steps m [] steps -> steps <> [] ->
    decode m (written (flat_map spelled steps)) = Some (written (map name_of steps), false, version_of (last steps (Plain []))).
  Proof.
    intros G Hne. unfold decode. rewrite split_names; [|eapply spelled_names; eassumption|destruct steps as [|[|] ?]; [congruence|discriminate|discriminate]]. change (mkD [] false None) with (mkD (folder_of []) false None). rewrite (decode_steps steps [] None G Hne). reflexivity.
  Qed.

  (** The folder of versions itself. *)
  Lemma decode_folder steps n : good_steps m [] steps -> proper_name n -> ~ exists_at m (map name_of steps ++ [n ++ $".versions"]) ->
    decode m (written (flat_map spelled steps ++ [n ++ $".versions"])) = Some (written (map name_of steps ++ [n]), true, 0).
  Proof.
    intros G Hp Hv. unfold decode.
    assert (Hsplit : split slash (lstrip slash (written (flat_map spelled steps ++ [n ++ $".versions"]))) = flat_map spelled steps ++ [n ++ $".versions"]).
    { apply split_names; [|destruct (flat_map spelled steps); discriminate]. apply Forall_app. split; [eapply spelled_names; eassumption|].
      constructor; [now apply versions_name|constructor]. }
    rewrite Hsplit, decode_app.
    assert (Hlast : forall st, d_special st = false -> d_path st = folder_of (map name_of steps) ->
       decode_parts m st [n ++ $".versions"] = Some (mkD (written (map name_of steps ++ [n])) true (Some 0))).
    { intros st H1 H2. cbn [decode_parts]. unfold decode_step. rewrite H1, H2, folder_child.
      destruct (s_lookup m (written (map name_of steps ++ [n ++ $".versions"])) 0) as [j|] eqn:E; [exfalso; apply Hv; now exists j|].
      rewrite versions_suffix by apply Hp. f_equal. f_equal. rewrite <- !folder_child.
      replace (folder_of (map name_of steps) ++ slash :: n ++ $".versions") with ((folder_of (map name_of steps) ++ slash :: n) ++ $".versions") by (now rewrite <- app_assoc).
      apply drop_end_app. }
    destruct steps as [|s r].
    - change (decode_parts m (mkD [] false None) (flat_map spelled [])) with (Some (mkD [] false None)). cbv iota. rewrite Hlast by reflexivity. reflexivity.
    - change (mkD [] false None) with (mkD (folder_of []) false None). rewrite (decode_steps (s :: r) [] None G ltac:(discriminate)).
      rewrite Hlast; [reflexivity|reflexivity|]. cbn [d_path app]. destruct s; reflexivity.
  Qed.

  (** A component below a versions folder that is not the canonical decimal writing of a number. *)
  Lemma decode_step_not_number st part : d_special st = true -> (forall k, part <> py_str k) -> decode_step m st part = None.
  Proof.
    intros H Hn. unfold decode_step. rewrite H. destruct (py_int part) as [v|]; [|reflexivity]. destruct (str_eqb_spec (py_str v) part) as [E|]; [|reflexivity].
    exfalso. now apply (Hn v).
  Qed.

  Definition has_version (s : step) : bool := match s with AtVersion _ _ => true | Plain _ => false end.
  Lemma plain_names steps : existsb has_version steps = false -> flat_map spelled steps = map name_of steps.
  Proof. induction steps as [|[n|n k] r IH]; cbn; intros H; [reflexivity|now rewrite IH|discriminate]. Qed.
  Lemma parents_exist_app : parents_exist m -> forall b loc, loc <> [] -> Forall proper_name (loc ++ b) -> exists_at m (loc ++ b) -> exists_at m loc.
  Proof.
    intros Hp b. induction b as [|x b IH] using rev_ind; intros loc Hl Hf H; [now rewrite app_nil_r in H|].
    rewrite app_assoc in H, Hf. apply IH; [assumption|apply Forall_app in Hf; tauto|]. apply (Hp _ x); [|assumption|assumption]. destruct loc; [congruence|discriminate].
  Qed.
  Lemma spelled_missing steps : forall loc, parents_exist m -> good_steps m loc steps -> existsb has_version steps = true ->
    forall rest, Forall proper_name loc -> Forall proper_name rest -> ~ exists_at m (loc ++ flat_map spelled steps ++ rest).
  Proof.
    induction steps as [|s steps IH]; intros loc Hp G Hv rest Hl Hres; [discriminate|].
    inversion G as [|? n r Hn He Hr|? n k r Hn He Hx Hr]; subst; cbn [flat_map spelled app].
    - specialize (IH (loc ++ [n]) Hp Hr Hv rest). rewrite <- app_assoc in IH. apply IH; [|assumption]. apply Forall_app. split; [assumption|now constructor].
    - intros H. apply Hx. apply (parents_exist_app Hp (py_str k :: flat_map spelled steps ++ rest)); [destruct loc; discriminate| |].
      { rewrite <- app_assoc. apply Forall_app. split; [assumption|]. pose proof (spelled_proper _ _ G) as F. cbn [flat_map spelled app] in F. inversion F as [|? ? F1 F2]; subst. inversion F2; subst.
        constructor; [assumption|]. constructor; [assumption|]. apply Forall_app. now split. }
      rewrite <- app_assoc. exact H.
  Qed.
  Lemma not_exists_at loc : ~ exists_at m loc -> s_lookup m (written loc) 0 = None.
  Proof. intros H. destruct (s_lookup m (written loc) 0) as [i|] eqn:E; [exfalso; apply H; now exists i|reflexivity]. Qed.
  Lemma versions_missing steps n rest : parents_exist m -> good_steps m [] steps -> ~ exists_at m (map name_of steps ++ [n ++ $".versions"]) ->
    proper_name n -> Forall proper_name rest ->
    ~ exists_at m (flat_map spelled steps ++ (n ++ $".versions") :: rest) /\ Forall proper_name (flat_map spelled steps ++ (n ++ $".versions") :: rest).
  Proof.
    intros Hp G Hv Hn Hres.
    assert (F : Forall proper_name (flat_map spelled steps ++ (n ++ $".versions") :: rest)).
    { apply Forall_app. split; [eapply spelled_proper; eassumption|]. constructor; [now apply versions_proper|assumption]. }
    split; [|assumption]. destruct (existsb has_version steps) eqn:E.
    { apply (spelled_missing steps [] Hp G E); [constructor|]. apply Forall_app in F. tauto. }
    rewrite plain_names in * by assumption. intros H. apply Hv. apply (parents_exist_app Hp rest); [destruct (map name_of steps); discriminate| |]; now rewrite <- app_assoc.
  Qed.

  Variable mp : finfo U -> str.
  Lemma lookup_spelled steps : parents_exist m -> good_steps m [] steps -> existsb has_version steps = true ->
    v_lookup m mp (written (flat_map spelled steps)) = Ok (option_map VersionOf (s_lookup m (written (map name_of steps)) (version_of (last steps (Plain []))))).
  Proof.
    intros Hp G Hv. unfold v_lookup, resolve_hard_links.
    pose proof (spelled_missing steps [] Hp G Hv [] (Forall_nil _) (Forall_nil _)) as Hm. rewrite app_nil_r in Hm. cbn [app] in Hm. rewrite not_exists_at by assumption.
    rewrite decode_spelled; [reflexivity|assumption|destruct steps; [discriminate|congruence]].
  Qed.
  Lemma lookup_folder steps n : parents_exist m -> good_steps m [] steps -> proper_name n -> ~ exists_at m (map name_of steps ++ [n ++ $".versions"]) ->
    v_lookup m mp (written (flat_map spelled steps ++ [n ++ $".versions"])) =
      match s_lookup m (written (map name_of steps ++ [n])) 0 with
      | Some i => Ok (Some (VersionsFolder (fi_mtime i) (fi_uid i) (fi_gid i)))
      | None => Err AssertionError
      end.
  Proof.
    intros Hp G Hn Hv. unfold v_lookup, resolve_hard_links. rewrite not_exists_at by (now apply (versions_missing steps n [])). rewrite decode_folder by assumption. reflexivity.
  Qed.
  Lemma list_folder steps n : parents_exist m -> only_existing_listed m -> good_steps m [] steps -> proper_name n ->
    ~ exists_at m (map name_of steps ++ [n ++ $".versions"]) ->
    let names := LNames (map (fun k => py_str (Z.of_nat k)) (seq 1 (s_versions m (written (map name_of steps ++ [n]))))) in
    let path := written (flat_map spelled steps ++ [n ++ $".versions"]) in
    v_list m (s_list m) path = names /\ v_list m (s_list_mode m) path = LNames (map (fun k => py_str (Z.of_nat k)) (seq 1 (s_versions m (written (map name_of steps ++ [n]))))).
  Proof.
    intros Hp Ho G Hn Hv names path. destruct (versions_missing steps n [] Hp G Hv Hn (Forall_nil _)) as [Hm Hmp].
    assert (Hne : flat_map spelled steps ++ [n ++ $".versions"] <> []) by (destruct (flat_map spelled steps); discriminate).
    destruct (Ho _ Hne Hmp Hm) as [H1 H2]. fold path in H1, H2. unfold v_list. rewrite H1, H2. unfold path, names. rewrite decode_folder by assumption.
    assert (E : forall k, map (fun k => py_str (Z.of_nat k + 1)) (seq 0 k) = map (fun k => py_str (Z.of_nat k)) (seq 1 k)).
    { intros k. rewrite <- seq_shift, map_map. apply map_ext. intros a. f_equal. lia. }
    rewrite !E. split; reflexivity.
  Qed.
  Lemma list_spelled steps : parents_exist m -> only_existing_listed m -> good_steps m [] steps -> existsb has_version steps = true ->
    v_list m (s_list m) (written (flat_map spelled steps)) = s_list m (written (map name_of steps)) /\
    v_list m (s_list_mode m) (written (flat_map spelled steps)) = s_list_mode m (written (map name_of steps)).
  Proof.
    intros Hp Ho G Hv. pose proof (spelled_missing steps [] Hp G Hv [] (Forall_nil _) (Forall_nil _)) as Hm. rewrite app_nil_r in Hm. cbn [app] in Hm.
    assert (Hne : steps <> []) by (destruct steps; [discriminate|congruence]).
    assert (Hne2 : flat_map spelled steps <> []) by (destruct steps as [|[|] ?]; [congruence|discriminate|discriminate]).
    destruct (Ho _ Hne2 (spelled_proper _ _ G) Hm) as [H1 H2]. unfold v_list. rewrite H1, H2, decode_spelled by assumption. split; reflexivity.
  Qed.
  Lemma not_number steps n x : parents_exist m -> only_existing_listed m -> good_steps m [] steps -> proper_name n -> proper_name x ->
    ~ exists_at m (map name_of steps ++ [n ++ $".versions"]) -> (forall k, x <> py_str k) ->
    let path := written (flat_map spelled steps ++ [n ++ $".versions"; x]) in
    v_lookup m mp path = Ok None /\ v_list m (s_list m) path = LNone /\ v_list m (s_list_mode m) path = LNone.
  Proof.
    intros Hp Ho G Hn Hx Hv Hk path. destruct (versions_missing steps n [x] Hp G Hv Hn (Forall_cons _ Hx (Forall_nil _))) as [Hm Hmp].
    assert (Hd : decode m path = None).
    { pose proof (decode_folder steps n G Hn Hv) as D. unfold decode in *.
      assert (Hs : Forall (fun p => p <> [] /\ ~ In slash p) (flat_map spelled steps ++ [n ++ $".versions"])).
      { apply Forall_app. split; [eapply spelled_names; eassumption|]. constructor; [now apply versions_name|constructor]. }
      rewrite split_names in D by (assumption || (destruct (flat_map spelled steps); discriminate)).
      unfold path. rewrite split_names; [|apply Forall_app; split; [eapply spelled_names; eassumption|];
        constructor; [now apply versions_name|constructor; [split; apply Hx|constructor]]|destruct (flat_map spelled steps); discriminate].
      change [n ++ $".versions"; x] with ([n ++ $".versions"] ++ [x]). rewrite app_assoc, decode_app.
      destruct (decode_parts m (mkD [] false None) (flat_map spelled steps ++ [n ++ $".versions"])) as [st|]; [|reflexivity].
      cbn [decode_parts]. rewrite decode_step_not_number; [reflexivity| |assumption].
      destruct (d_version st); [|discriminate]. congruence. }
    assert (Hne : flat_map spelled steps ++ [n ++ $".versions"; x] <> []) by (destruct (flat_map spelled steps); discriminate).
    destruct (Ho _ Hne Hmp Hm) as [H1 H2]. fold path in H1, H2. unfold v_lookup, v_list, resolve_hard_links. rewrite H1, H2.
    unfold path at 1. rewrite not_exists_at by assumption. fold path. rewrite Hd. auto.
  Qed.

  (** ** Hard links *)
  Lemma link_target_eq i : link_target mp i = path_join (mp i) (lstrip slash (fi_linkname i)).
  Proof. unfold link_target. rewrite lstrip_sep, lstrip_idem. reflexivity. Qed.

  Lemma is_hard_link_spec (i : finfo U) : is_hard_link i = true <-> hard_link i.
  Proof.
    unfold is_hard_link, hard_link. rewrite !andb_true_iff, !negb_true_iff. destruct (str_eqb_spec (fi_linkname i) []); intuition congruence.
  Qed.
  Lemma resolve_loop_spec limit : forall p v i, 0 <= v ->
    match resolve_loop m mp limit p v i with
    | Some i' => exists n p' v', (n <= limit)%nat /\ hops m mp n (p, v, i) (p', v', i') /\ (~ hard_link i' \/ n = limit)
    | None => exists n p' v' i', (n < limit)%nat /\ hops m mp n (p, v, i) (p', v', i') /\ hard_link i' /\
        forall e, ~ hop m mp (p', v', i') e
    end.
  Proof.
    induction limit as [|limit IH]; intros p v i Hv; cbn [resolve_loop].
    - exists O, p, v. repeat split; auto. constructor.
    - destruct (is_hard_link i) eqn:Eh; [|exists O, p, v; repeat split; [lia|constructor|left; rewrite <- is_hard_link_spec; congruence]].
      rewrite link_target_eq. set (t := path_join (mp i) (lstrip slash (fi_linkname i))).
      set (v' := if str_eqb t p then (if 0 <=? v then v + 1 else v - 1) else 0).
      assert (Hv' : 0 <= v' /\ (t <> p -> v' = 0) /\ (t = p -> v' = v + 1)).
      { unfold v'. destruct (str_eqb_spec t p) as [E|N]; [destruct (Z.leb_spec 0 v)|]; repeat split; try lia; intros; try contradiction; try congruence; lia. }
      destruct Hv' as (V1 & V2 & V3).
      destruct (s_lookup m t v') as [i2|] eqn:El.
      + assert (Hh : hop m mp (p, v, i) (t, v', i2)) by (constructor; auto; now apply is_hard_link_spec).
        specialize (IH t v' i2 V1). destruct (resolve_loop m mp limit t v' i2) as [i'|].
        * destruct IH as (n & p' & v2 & Hn & Hhs & Hend). exists (S n), p', v2. split; [lia|]. split; [econstructor; eassumption|]. destruct Hend; [now left|right; lia].
        * destruct IH as (n & p' & v2 & i' & Hn & Hhs & He & Hno). exists (S n), p', v2, i'. split; [lia|]. split; [econstructor; eassumption|]. auto.
      + exists O, p, v, i. split; [lia|]. split; [constructor|]. split; [now apply is_hard_link_spec|]. intros e H. inversion H; subst.
        assert (v'0 = v'). { destruct (str_eqb_spec t p) as [E|N]; [rewrite V3 by assumption; auto|rewrite V2 by assumption; auto]. }
        subst v'0. fold t in H8. congruence.
  Qed.

  Lemma hop_det e e1 e2 : hop m mp e e1 -> hop m mp e e2 -> e1 = e2.
  Proof.
    intros H1 H2. inversion H1 as [p v i p1 v1 i1 A1 A2 A3 A4 A5]; subst. inversion H2 as [? ? ? p2 v2 i2 B1 B2 B3 B4 B5]; subst.
    set (t := path_join (mp i) (lstrip slash (fi_linkname i))) in *.
    assert (v1 = v2). { destruct (str_eqb_spec t p) as [E|N]; [rewrite A4, B4 by assumption; reflexivity|rewrite A3, B3 by assumption; reflexivity]. }
    subst v2. congruence.
  Qed.
  Lemma hops_stop n e e1 : hops m mp n e e1 -> ~ hard_link (snd e1) -> forall k e2, hops m mp k e e2 ->
    (k <= n)%nat /\ (~ hard_link (snd e2) -> e2 = e1).
  Proof.
    induction 1 as [e|n e a e1 Hh _ IH]; intros Hs k e2 Hk.
    - inversion Hk as [|k' x y z Hh Hr]; subst; [split; [lia|reflexivity]|]. exfalso. inversion Hh; subst. now apply Hs.
    - inversion Hk as [|k' x y z Hh' Hr]; subst.
      + split; [lia|]. intros Hf. exfalso. inversion Hh; subst. now apply Hf.
      + rewrite (hop_det _ _ _ Hh' Hh) in Hr. destruct (IH Hs k' e2 Hr) as [K1 K2]. split; [lia|assumption].
  Qed.
  Lemma hops_dead n e e1 : hops m mp n e e1 -> (forall x, ~ hop m mp e1 x) -> forall k e2, hops m mp k e e2 -> (k <= n)%nat /\ (k = n -> e2 = e1).
  Proof.
    induction 1 as [e|n e a e1 Hh _ IH]; intros Hs k e2 Hk.
    - inversion Hk as [|k' x y z Hh Hr]; subst; [split; [lia|reflexivity]|]. exfalso. now apply (Hs y).
    - inversion Hk as [|k' x y z Hh' Hr]; subst; [split; [lia|discriminate]|]. rewrite (hop_det _ _ _ Hh' Hh) in Hr. destruct (IH Hs k' e2 Hr) as [K1 K2].
      split; [lia|]. intros E. apply K2. lia.
  Qed.
End Proofs.
