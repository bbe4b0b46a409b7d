From Coq Require Import Ascii String.
From Verif Require Import PyBase PyDict PyStr Path_Spec Path_Proofs FileInfo Union_Model Union_Spec.
Local Open Scope Z_scope.

Section Proofs.
  Context {U : Type}.
  Implicit Types (m : source U) (sources : list (source U)).

  (** ** Versions *)
  Lemma look_back_spec path (ms : list (nat * source U)) (vss : list (list (finfo U))) : Forall2 (fun im vs => numbered path (snd im) vs) ms vss ->
    forall v, v <= 0 ->
    look_back ms path v = nth_error (concat (map (fun '(im, vs) => map (pair (fst im)) (rev vs)) (combine ms vss))) (Z.to_nat (- v)).
  Proof.
    induction 1 as [|[i m] vs ms vss [Hn Hl] _ IH]; intros v Hv; cbn [look_back combine map concat]; [destruct (Z.to_nat (- v)); reflexivity|].
    cbn [snd fst] in *. rewrite Hl. unfold pick. replace (v <=? 0) with true by (symmetry; now apply Z.leb_le).
    destruct (Nat.lt_ge_cases (Z.to_nat (- v)) (length vs)) as [H|H].
    - rewrite nth_error_app1 by (rewrite map_length, rev_length; exact H). rewrite nth_error_map.
      destruct (nth_error (rev vs) (Z.to_nat (- v))) eqn:E; [reflexivity|]. apply nth_error_None in E. rewrite rev_length in E. lia.
    - rewrite nth_error_app2 by (rewrite map_length, rev_length; exact H). rewrite map_length, rev_length.
      replace (nth_error (rev vs) (Z.to_nat (- v))) with (@None (finfo U)) by (symmetry; apply nth_error_None; rewrite rev_length; exact H).
      rewrite Hn. replace (0 <? v + Z.of_nat (length vs)) with false by (symmetry; apply Z.ltb_ge; lia).
      rewrite IH by lia. f_equal. lia.
  Qed.

  Lemma look_forward_spec path (ms : list (nat * source U)) (vss : list (list (finfo U))) : Forall2 (fun im vs => numbered path (snd im) vs) ms vss ->
    forall v, 1 <= v ->
    look_forward ms path v = nth_error (concat (map (fun '(im, vs) => map (pair (fst im)) vs) (combine ms vss))) (Z.to_nat (v - 1)).
  Proof.
    induction 1 as [|[i m] vs ms vss [Hn Hl] _ IH]; intros v Hv; cbn [look_forward combine map concat]; [destruct (Z.to_nat (v - 1)); reflexivity|].
    cbn [snd fst] in *. rewrite Hl. unfold pick. replace (v <=? 0) with false by (symmetry; apply Z.leb_gt; lia).
    destruct (Nat.lt_ge_cases (Z.to_nat (v - 1)) (length vs)) as [H|H].
    - rewrite nth_error_app1 by (rewrite map_length; exact H). rewrite nth_error_map.
      destruct (nth_error vs (Z.to_nat (v - 1))) eqn:E; [reflexivity|]. apply nth_error_None in E. lia.
    - rewrite nth_error_app2 by (rewrite map_length; exact H). rewrite map_length.
      replace (nth_error vs (Z.to_nat (v - 1))) with (@None (finfo U)) by (symmetry; apply nth_error_None; exact H).
      rewrite Hn. replace (v - Z.of_nat (length vs) <? 1) with false by (symmetry; apply Z.ltb_ge; lia).
      rewrite IH by lia. f_equal. lia.
  Qed.

  Lemma Forall2_rev {X Y} (R : X -> Y -> Prop) l k : Forall2 R l k -> Forall2 R (rev l) (rev k).
  Proof. induction 1; cbn; [constructor|]. apply Forall2_app; [assumption|]. now repeat constructor. Qed.

  Lemma combine_rev {X Y} (l : list X) (k : list Y) : length l = length k -> combine (rev l) (rev k) = rev (combine l k).
  Proof.
    revert k. induction l as [|x l IH]; intros [|y k] H; cbn in *; try discriminate; [reflexivity|].
    rewrite <- IH by lia. assert (Hl : length (rev l) = length (rev k)) by (rewrite !rev_length; lia).
    revert Hl. generalize (rev l) (rev k). clear. induction l as [|a l IH]; intros [|b k] H; cbn in *; try discriminate; [reflexivity|].
    f_equal. apply IH. lia.
  Qed.

  Lemma combine_app {X Y} (l1 l2 : list X) (k1 k2 : list Y) : length l1 = length k1 -> combine (l1 ++ l2) (k1 ++ k2) = combine l1 k1 ++ combine l2 k2.
  Proof. revert k1. induction l1 as [|x l1 IH]; intros [|y k1] H; try discriminate; [reflexivity|]. cbn. f_equal. apply IH. now injection H. Qed.

  Lemma concat_rev_map {X Y} (f : X -> list Y) l : concat (map (fun x => rev (f x)) (rev l)) = rev (concat (map f l)).
  Proof.
    induction l as [|x l IH]; cbn; [reflexivity|]. rewrite map_app, concat_app, IH. cbn. rewrite app_nil_r. now rewrite rev_app_distr.
  Qed.

  Lemma numbered_all path sources vss k : Forall2 (numbered path) sources vss ->
    Forall2 (fun im vs => numbered path (snd im) vs) (combine (seq k (length sources)) sources) vss.
  Proof. intros H. revert k. induction H; intros k; cbn; constructor; [assumption|]. apply IHForall2. Qed.

  Lemma all_versions_eq sources (vss : list (list (finfo U))) : length sources = length vss ->
    concat (map (fun '(im, vs) => map (pair (fst im)) vs) (combine (combine (seq 0 (length sources)) sources) vss)) = all_versions vss.
  Proof.
    unfold all_versions. generalize O as k. revert vss.
    induction sources as [|m ms IH]; intros [|vs vss] k H; cbn in *; try discriminate; [reflexivity|]. f_equal. apply IH. lia.
  Qed.

  Lemma F2_length {X Y} (R : X -> Y -> Prop) l k : Forall2 R l k -> length l = length k.
  Proof. induction 1; cbn; congruence. Qed.

  Lemma look_all path sources vss v : Forall2 (numbered path) sources vss ->
    (if v <=? 0 then look_back (rev (combine (seq 0 (length sources)) sources)) path v
     else look_forward (combine (seq 0 (length sources)) sources) path v) = pick (all_versions vss) v.
  Proof.
    intros H. pose proof (numbered_all path sources vss 0 H) as Hn. assert (Hlen : length sources = length vss) by (eapply F2_length; eassumption).
    unfold pick. destruct (Z.leb_spec v 0).
    - rewrite (look_back_spec path _ _ (Forall2_rev _ _ _ Hn)) by assumption. f_equal.
      rewrite combine_rev by (rewrite combine_length, seq_length; lia).
      rewrite <- (all_versions_eq sources vss Hlen).
      rewrite <- (concat_rev_map (fun '(im, vs) => map (pair (fst im)) vs)). f_equal. apply map_ext. intros [im vs]. apply map_rev.
    - rewrite (look_forward_spec path _ _ Hn) by lia. now rewrite all_versions_eq.
  Qed.

  Lemma versions_all path sources vss : Forall2 (numbered path) sources vss -> union_versions sources path = length (all_versions vss).
  Proof.
    intros H. unfold union_versions, all_versions. generalize O as k. induction H as [|m vs ms vss [Hn _] _ IH]; intros k; cbn; [reflexivity|].
    rewrite app_length, map_length, Hn. now rewrite <- IH.
  Qed.

  Lemma filter_all {X} (f : X -> bool) l : (forall x, In x l -> f x = true) -> filter f l = l.
  Proof. induction l as [|x l IH]; intros H; cbn; [reflexivity|]. rewrite (H x) by now left. f_equal. apply IH. intros y Hy. apply H. now right. Qed.

  Lemma chosen_all sources path c : dget str_eqb c path = None -> chosen sources c 0 path = combine (seq 0 (length sources)) sources.
  Proof.
    intros E. unfold chosen. rewrite E. cbn [Nat.ltb Nat.leb andb].
    apply filter_all. intros [i m] H. apply in_combine_l in H. apply orb_true_iff. right.
    apply existsb_exists. exists i. split; [assumption|apply Nat.eqb_refl].
  Qed.

  (** ** Listing *)
  Lemma list_step_names {V} (files result : listing V) n : In n (names_of (list_step files result)) <-> In n (names_of files) \/ In n (names_of result).
  Proof.
    destruct files as [|fs|d], result as [|ns|r]; cbn; try tauto.
    - rewrite in_app_iff. tauto.
    - rewrite in_app_iff. tauto.
    - rewrite in_app_iff. tauto.
    - apply (In_dkeys_dupdate str_eqb str_eqb_spec).
  Qed.
  Lemma list_step_none {V} (files result : listing V) : list_step files result = LNone <-> files = LNone /\ result = LNone.
  Proof. destruct files, result; cbn; split; try tauto; try discriminate; intros [? ?]; discriminate. Qed.

  Lemma fold_names {V} (results : list (listing V)) : forall files n,
    In n (names_of (fold_left list_step results files)) <-> In n (names_of files) \/ exists r, In r results /\ In n (names_of r).
  Proof.
    induction results as [|r rs IH]; intros files n; cbn [fold_left].
    - split; [now left|]. intros [H|(r & [] & _)]. exact H.
    - rewrite IH, list_step_names. split.
      + intros [[H|H]|(r' & Hr & H)]; [now left|right; exists r; split; [now left|assumption]|right; exists r'; split; [now right|assumption]].
      + intros [H|(r' & [<-|Hr] & H)]; [tauto|tauto|right; eauto].
  Qed.
  Lemma fold_none {V} (results : list (listing V)) : forall files,
    fold_left list_step results files = LNone <-> files = LNone /\ forall r, In r results -> r = LNone.
  Proof.
    induction results as [|r rs IH]; intros files; cbn [fold_left].
    - split; [intros H; split; [assumption|intros r []]|tauto].
    - rewrite IH, list_step_none. split.
      + intros [[H1 H2] H3]. split; [assumption|]. intros r' [<-|H]; auto.
      + intros [H1 H2]. split; [split; [assumption|apply H2; now left]|]. intros r' H. apply H2; now right.
  Qed.

  Lemma fold_map {X V} (f : X -> listing V) l files : fold_left (fun a x => list_step a (f x)) l files = fold_left list_step (map f l) files.
  Proof. revert files. induction l as [|x l IH]; intros files; cbn; auto. Qed.

  Lemma union_names {V} (f : source U -> listing V) sources n :
    In n (names_of (fold_left (fun files m => list_step files (f m)) (rev sources) LNone)) <->
    exists m, In m sources /\ In n (names_of (f m)).
  Proof.
    rewrite fold_map, fold_names. cbn. split.
    - intros [[]|(r & Hr & H)]. apply in_map_iff in Hr as (m & <- & Hm). exists m. split; [now apply in_rev|assumption].
    - intros (m & Hm & H). right. exists (f m). split; [apply in_map; now apply -> in_rev|assumption].
  Qed.

  Lemma union_none {V} (f : source U -> listing V) sources :
    fold_left (fun files m => list_step files (f m)) (rev sources) LNone = LNone <-> forall m, In m sources -> f m = LNone.
  Proof.
    rewrite fold_map, fold_none. split.
    - intros [_ H] m Hm. apply H. apply in_map. now apply -> in_rev.
    - intros H. split; [reflexivity|]. intros r Hr. apply in_map_iff in Hr as (m & <- & Hm). apply H. now apply in_rev.
  Qed.

  (** If every source answers with metadata, the listed metadata is that of the first source with the name. *)
  Definition first_offer {V} (f : source U -> listing V) (n : str) (l : list (source U)) : option V :=
    fold_right (fun m rest => match f m with
                              | LDict d => match dget str_eqb d n with Some i => Some i | None => rest end
                              | _ => rest
                              end) None l.

  Definition dict_or_none {V} (f : source U -> listing V) m : Prop :=
    match f m with LNames _ => False | LNone => True | LDict d => NoDup (dkeys d) end.

  Lemma union_dict {V} (f : source U -> listing V) sources : Forall (dict_or_none f) sources ->
    (fold_left (fun files m => list_step files (f m)) (rev sources) LNone = LNone /\ forall n, first_offer f n sources = None) \/
    exists d, fold_left (fun files m => list_step files (f m)) (rev sources) LNone = LDict d /\
      forall n, dget str_eqb d n = first_offer f n sources.
  Proof.
    induction 1 as [|m ms Hm _ IH]; [left; split; reflexivity|].
    cbn [rev]. rewrite fold_left_app. cbn [fold_left]. unfold dict_or_none in Hm.
    destruct IH as [[-> Hn]|(d & -> & Hd)].
    - destruct (f m) as [|ns|r] eqn:E; cbn [list_step]; [left|destruct Hm|right].
      + split; [reflexivity|]. intros n. cbn. rewrite E. apply Hn.
      + exists r. split; [reflexivity|]. intros n. cbn. rewrite E. fold (first_offer f n ms). rewrite Hn. destruct (dget str_eqb r n); reflexivity.
    - right. destruct (f m) as [|ns|r] eqn:E; cbn [list_step]; [|destruct Hm|].
      + exists d. split; [reflexivity|]. intros n. cbn. rewrite E. apply Hd.
      + eexists. split; [reflexivity|]. intros n. rewrite (dget_dupdate str_eqb str_eqb_spec) by exact Hm. cbn. rewrite E.
        fold (first_offer f n ms). now rewrite Hd.
  Qed.

  (** ** The folder cache *)
  Definition getl (c : list (str * list nat)) (p : str) : list nat := match dget str_eqb c p with Some l => l | None => [] end.

  Lemma cache_add_get c p i q : dget str_eqb (cache_add c (p, i)) q =
    if str_eqb q p then Some (getl c p ++ [i]) else dget str_eqb c q.
  Proof.
    unfold cache_add, getl. destruct (dget str_eqb c p) as [l|] eqn:E; rewrite (dget_dset str_eqb str_eqb_spec); destruct (str_eqb q p); reflexivity.
  Qed.
  Lemma cache_add_nodup c e : NoDup (dkeys c) -> NoDup (dkeys (cache_add c e)).
  Proof. destruct e as [p i]. intros H. unfold cache_add. destruct (dget str_eqb c p); now apply (NoDup_dset str_eqb str_eqb_spec). Qed.

  Lemma cache_adds pairs : forall c,
    (NoDup (dkeys c) -> NoDup (dkeys (fold_left cache_add pairs c))) /\
    (forall q i, In i (getl (fold_left cache_add pairs c) q) <-> In i (getl c q) \/ In (q, i) pairs) /\
    (forall q, dget str_eqb (fold_left cache_add pairs c) q = None <-> dget str_eqb c q = None /\ forall i, ~ In (q, i) pairs) /\
    ((forall q, dget str_eqb c q <> Some []) -> forall q, dget str_eqb (fold_left cache_add pairs c) q <> Some []).
  Proof.
    induction pairs as [|[p i] pairs IH]; intros c; cbn [fold_left].
    - repeat split; auto; try tauto. + intros [H|[]]; exact H.
    - destruct (IH (cache_add c (p, i))) as (I1 & I2 & I3 & I4). repeat split.
      + intros H. apply I1. now apply cache_add_nodup.
      + intros H. apply I2 in H as [H|H]; [|right; now right]. unfold getl in H at 1. rewrite cache_add_get in H.
        destruct (str_eqb_spec q p) as [->|]; [|now left]. apply in_app_iff in H as [H|[->|[]]]; [now left|right; now left].
      + intros H. apply I2. unfold getl at 1. rewrite cache_add_get. destruct (str_eqb_spec q p) as [->|N].
        * destruct H as [H|[H|H]]; [left; apply in_app_iff; now left| |now right]. injection H as ->. left. apply in_app_iff; right; now left.
        * destruct H as [H|[H|H]]; [now left|congruence|now right].
      + apply I3 in H as [H _]. rewrite cache_add_get in H. destruct (str_eqb q p); [discriminate|assumption].
      + intros j [H2|H2].
        * injection H2 as -> ->. apply I3 in H as [H _]. rewrite cache_add_get, str_eqb_refl in H. discriminate.
        * apply I3 in H as [_ H]. now apply (H j).
      + intros [H1 H2]. apply I3. split; [|intros j Hj; apply (H2 j); now right]. rewrite cache_add_get.
        destruct (str_eqb_spec q p) as [->|]; [|assumption]. exfalso. apply (H2 i). now left.
      + intros H. apply I4. intros q. rewrite cache_add_get. destruct (str_eqb q p); [|apply H]. intros E. injection E as E. destruct (getl c p); discriminate.
  Qed.

  Lemma ends_slash_written loc : Forall proper_name loc -> loc <> [] -> ends_with $"/" (written loc) = false.
  Proof.
    intros H Hne. apply not_true_iff_false. intros E. apply ends_with_spec in E as [t Et].
    pose proof (rstrip_written loc H) as Hr. rewrite Et in Hr. change $"/" with [slash] in Hr. rewrite rstrip_snoc_sep in Hr.
    assert (Hf : folder_of loc = written loc) by (destruct loc; [congruence|reflexivity]). rewrite Hf, Et in Hr.
    assert (Hlen : (length (rstrip slash t) <= length t)%nat).
    { unfold rstrip. rewrite rev_length. rewrite <- (rev_length t). generalize (rev t). clear. intros s. induction s as [|c s IH]; [apply le_n|].
      destruct (char_eqb_spec c slash) as [->|N]; [rewrite lstrip_sep; cbn [length]; lia|]. rewrite lstrip_id by assumption. apply le_n. }
    rewrite Hr in Hlen. rewrite app_length in Hlen. cbn in Hlen. lia.
  Qed.

  Lemma join_written loc n : Forall proper_name loc -> proper_name n -> path_join (written loc) n = written (loc ++ [n]).
  Proof.
    intros Hl Hn. unfold path_join. destruct (starts_with $"/" n) eqn:E.
    { apply starts_with_spec in E as [t ->]. exfalso. apply Hn. now left. }
    destruct loc as [|x r].
    - reflexivity.
    - change (match written (x :: r) with [] => true | _ => ends_with $"/" (written (x :: r)) end) with (ends_with $"/" (written (x :: r))).
      rewrite ends_slash_written by (assumption || discriminate). symmetry.
      change (written (x :: r)) with (slash :: join $"/" (x :: r)). unfold written. rewrite (join_app _ (x :: r) [n]) by discriminate. reflexivity.
  Qed.

  Variable sources : list (source U).
  Hypothesis Hcoh : forall m, In m sources -> s_immutable m = true -> coherent m.

  Definition imm_folder (i : nat) (loc : location) : Prop :=
    exists m, nth_error sources i = Some m /\ s_immutable m = true /\ is_folder m loc.

  Lemma folder_prefix m a b : coherent m -> Forall proper_name (a ++ b) -> is_folder m (a ++ b) -> is_folder m a.
  Proof.
    intros Hc. induction b as [|x b IH] using rev_ind; intros Hp H; [now rewrite app_nil_r in H|].
    rewrite app_assoc in *. destruct (proj2 Hc (a ++ b) x Hp) as [Hn|[Hf _]].
    - destruct H as [H|(info & E & _)]; [destruct (a ++ b); discriminate|]. rewrite (proj2 Hn) in E. discriminate.
    - apply IH; [apply Forall_app in Hp; tauto|assumption].
  Qed.

  Lemma something_prefix m a b : coherent m -> Forall proper_name (a ++ b) -> b <> [] -> nothing_at m (a ++ b) \/ is_folder m a.
  Proof.
    intros Hc Hp Hb. destruct (exists_last Hb) as (b' & x & ->). rewrite app_assoc in *.
    destruct (proj2 Hc (a ++ b') x Hp) as [Hn|[Hf _]]; [now left|right]. apply (folder_prefix m a b'); auto. apply Forall_app in Hp; tauto.
  Qed.

  Definition level_ok (d : nat) (last : list (str * list nat)) : Prop :=
    NoDup (dkeys last) /\
    (forall p, dget str_eqb last p <> None -> exists loc, Forall proper_name loc /\ length loc = d /\ p = written loc) /\
    (forall loc i, Forall proper_name loc -> length loc = d -> (In i (getl last (written loc)) <-> imm_folder i loc)).

  Definition cache_ok (d : nat) (c : list (str * list nat)) : Prop :=
    NoDup (dkeys c) /\
    (forall p, dget str_eqb c p <> None -> exists loc, Forall proper_name loc /\ (length loc <= d)%nat /\ p = written loc) /\
    (forall loc i, Forall proper_name loc -> (length loc <= d)%nat -> (In i (getl c (written loc)) <-> imm_folder i loc)) /\
    (forall loc, loc <> [] -> Forall proper_name loc -> dget str_eqb c (written loc) <> Some []).

  Lemma round_ok d last : level_ok d last -> level_ok (S d) (cache_round sources last) /\ (forall q, dget str_eqb (cache_round sources last) q <> Some []).
  Proof.
    intros (H1 & H2 & H3). unfold cache_round.
    set (pairs := flat_map _ last). destruct (cache_adds pairs []) as (A1 & A2 & A3 & A4).
    assert (Hpairs : forall q i, In (q, i) pairs <-> exists loc n, Forall proper_name (loc ++ [n]) /\ length loc = d /\ q = written (loc ++ [n]) /\ imm_folder i (loc ++ [n])).
    { intros q i. unfold pairs. rewrite in_flat_map. split.
      - intros ([folder idx] & Hf & H). apply in_flat_map in H as (j & Hj & H). destruct (nth_error sources j) as [m|] eqn:Em; [|destruct H].
        unfold dirs_of in H. apply in_flat_map in H as (file & Hfile & H). destruct (s_lookup m (path_join folder file) 0) as [info|] eqn:El; [|destruct H].
        destruct (is_dir_mode (fi_mode info)) eqn:Ed; [|destruct H]. destruct H as [H|[]]. injection H as <- <-.
        apply (NoDup_dget str_eqb str_eqb_spec) in Hf; [|assumption].
        destruct (H2 folder) as (loc & Hl & Hd & ->); [congruence|].
        assert (Hi : imm_folder j loc) by (apply (H3 loc j Hl Hd); unfold getl; now rewrite Hf).
        destruct Hi as (m' & Em' & Him & Hfo). rewrite Em in Em'. injection Em' as <-.
        assert (Hc : coherent m) by (apply Hcoh; [eapply nth_error_In; eassumption|assumption]).
        assert (Hn : proper_name file) by now apply (proj1 Hc loc).
        exists loc, file. rewrite join_written in * by assumption. repeat split; auto; [apply Forall_app; auto|].
        exists m. repeat split; auto. right. eauto.
      - intros (loc & n & Hp & Hd & -> & (m & Em & Him & Hfo)).
        assert (Hc : coherent m) by (apply Hcoh; [eapply nth_error_In; eassumption|assumption]).
        apply Forall_app in Hp as Hp'. destruct Hp' as [Hl Hn']. pose proof (Forall_inv Hn') as Hn.
        destruct Hfo as [E|(info & El & Ed)]; [destruct loc; discriminate|].
        destruct (proj2 Hc loc n Hp) as [Hno|[Hfo Hin]]; [rewrite (proj2 Hno) in El; discriminate|].
        assert (Hi : In i (getl last (written loc))) by (apply (H3 loc i Hl Hd); exists m; auto).
        unfold getl in Hi. destruct (dget str_eqb last (written loc)) as [idx|] eqn:Eg; [|destruct Hi].
        exists (written loc, idx). split; [now apply (dget_Some_In str_eqb str_eqb_spec)|]. apply in_flat_map. exists i. split; [assumption|].
        rewrite Em. unfold dirs_of. apply in_flat_map. exists n. split; [assumption|]. rewrite join_written by assumption. rewrite El, Ed. now left. }
    split; [|apply A4; intros q; discriminate].
    split; [apply A1; constructor|]. split.
    - intros p Hp. destruct (dget str_eqb (fold_left cache_add pairs []) p) as [l|] eqn:E; [|congruence].
      assert (Hl : l <> []) by (intros ->; revert E; apply A4; intros q; discriminate).
      destruct l as [|i l]; [congruence|]. assert (Hi : In i (getl (fold_left cache_add pairs []) p)) by (unfold getl; rewrite E; now left).
      apply A2 in Hi as [[]|Hi]. apply Hpairs in Hi as (loc & n & Hpn & Hd & -> & _). exists (loc ++ [n]). repeat split; auto.
      rewrite app_length. cbn. lia.
    - intros loc i Hp Hd. rewrite A2. destruct loc as [|n0 loc0] eqn:Eloc; [discriminate|]. rewrite <- Eloc in *.
      assert (Hne : loc <> []) by congruence. destruct (exists_last Hne) as (loc' & n & El). clear Eloc. subst loc.
      rewrite app_length in Hd. cbn in Hd. split.
      + intros [[]|H]. apply Hpairs in H as (loc2 & n2 & Hp2 & _ & E & Hi). apply written_inj in E; [|assumption|assumption]. now rewrite E.
      + intros H. right. apply Hpairs. exists loc', n. repeat split; auto. lia.
  Qed.

  Lemma merge_ok d c new : cache_ok d c -> level_ok (S d) new -> (forall q, dget str_eqb new q <> Some []) -> cache_ok (S d) (dupdate str_eqb c new).
  Proof.
    intros (C1 & C2 & C3 & C4) (L1 & L2 & L3) Hne. repeat split.
    - now apply (NoDup_dupdate str_eqb str_eqb_spec).
    - intros p Hp. rewrite (dget_dupdate str_eqb str_eqb_spec) in Hp by assumption. destruct (dget str_eqb new p) eqn:E.
      + destruct (L2 p) as (loc & H1 & H2 & H3); [congruence|]. exists loc. repeat split; auto. lia.
      + destruct (C2 p Hp) as (loc & H1 & H2 & H3). exists loc. repeat split; auto.
    - unfold getl. rewrite (dget_dupdate str_eqb str_eqb_spec) by assumption. intros Hi. destruct (dget str_eqb new (written loc)) as [l|] eqn:E.
      + destruct (L2 (written loc)) as (loc2 & H1 & H2 & H3); [congruence|]. apply written_inj in H3; [|assumption|assumption]. subst loc2.
        apply (L3 loc i H H2). unfold getl. now rewrite E.
      + destruct (Nat.eq_dec (length loc) (S d)) as [Ed|Nd].
        * destruct (dget str_eqb c (written loc)) eqn:Ec; [|destruct Hi]. destruct (C2 (written loc)) as (loc2 & H1 & H2 & H3); [congruence|].
          apply written_inj in H3; [|assumption|assumption]. subst loc2. lia.
        * apply (C3 loc i H); [lia|]. exact Hi.
    - unfold getl. rewrite (dget_dupdate str_eqb str_eqb_spec) by assumption. intros Hi.
      destruct (Nat.eq_dec (length loc) (S d)) as [Ed|Nd].
      + apply (L3 loc i H Ed) in Hi. unfold getl in Hi. destruct (dget str_eqb new (written loc)) eqn:E; [assumption|destruct Hi].
      + apply (C3 loc i H) in Hi; [|lia]. destruct (dget str_eqb new (written loc)) as [l|] eqn:E; [|exact Hi].
        destruct (L2 (written loc)) as (loc2 & H1 & H2 & H3); [congruence|]. apply written_inj in H3; [|assumption|assumption]. subst loc2. lia.
    - intros loc H1 H2. rewrite (dget_dupdate str_eqb str_eqb_spec) by assumption. destruct (dget str_eqb new (written loc)) eqn:E; [rewrite <- E; apply Hne|].
      now apply C4.
  Qed.

  Lemma rounds_ok rounds stop : forall d c last, cache_ok d c -> level_ok d last ->
    cache_ok (snd (cache_rounds sources rounds stop d c last)) (fst (cache_rounds sources rounds stop d c last)).
  Proof.
    induction rounds as [|rounds IH]; intros d c last Hc Hl; cbn [cache_rounds]; [exact Hc|].
    destruct (stop (S d)); [exact Hc|]. destruct (round_ok d last Hl) as [Hl' Hne].
    destruct (cache_round sources last) as [|e new] eqn:E; [exact Hc|]. rewrite <- E in *. apply IH; [now apply merge_ok|assumption].
  Qed.

  Lemma immutable_In i : In i (immutable_idx sources) <-> imm_folder i [].
  Proof.
    unfold immutable_idx. rewrite filter_In, in_seq. unfold imm_folder. split.
    - intros [H1 H2]. destruct (nth_error sources i) as [m|] eqn:E; [|discriminate]. exists m. repeat split; auto. now left.
    - intros (m & E & H & _). rewrite E. split; [|assumption]. split; [lia|]. cbn. apply nth_error_Some. congruence.
  Qed.

  Lemma start_ok : level_ok 0 [($"/", immutable_idx sources)] /\ cache_ok 0 [($"/", immutable_idx sources)].
  Proof.
    assert (Hn : NoDup (dkeys [($"/", immutable_idx sources)])) by (repeat constructor; intros []).
    assert (Hk : forall p, dget str_eqb [($"/", immutable_idx sources)] p <> None -> p = written []).
    { intros p. cbn [dget]. destruct (str_eqb_spec p $"/"); [auto|congruence]. }
    assert (Hi : forall loc i, length loc = O -> (In i (getl [($"/", immutable_idx sources)] (written loc)) <-> imm_folder i loc)).
    { intros [|x loc] i H; [|discriminate]. cbn. apply immutable_In. }
    split.
    - split; [assumption|]. split; [|intros loc i _; apply Hi]. intros p Hp. exists []. repeat split; auto.
    - split; [assumption|]. split; [|split].
      + intros p Hp. exists []. repeat split; auto.
      + intros loc i _ H. apply Hi. lia.
      + intros loc H1 H2 E. pose proof (Hk (written loc)) as H. rewrite E in H. specialize (H ltac:(discriminate)).
        apply (written_root loc H2) in H. congruence.
  Qed.

  (** Leaving out sources that have nothing at the path changes nothing. *)
  Definition idle (path : str) (im : nat * source U) : Prop := s_versions (snd im) path = O /\ forall v, s_lookup (snd im) path v = None.
  Lemma look_back_skip path (f : nat * source U -> bool) ms : (forall im, In im ms -> f im = false -> idle path im) ->
    forall v, v <= 0 -> look_back (filter f ms) path v = look_back ms path v.
  Proof.
    induction ms as [|[i m] ms IH]; intros H v Hv; cbn [filter look_back]; [reflexivity|].
    assert (H' : forall im, In im ms -> f im = false -> idle path im) by (intros im Him; apply H; now right).
    destruct (f (i, m)) eqn:E.
    - cbn [look_back]. destruct (s_lookup m path v); [reflexivity|]. destruct (Z.ltb_spec 0 (v + Z.of_nat (s_versions m path))); [reflexivity|].
      apply IH; auto.
    - destruct (H (i, m) ltac:(now left) E) as [Hv0 Hl]. cbn [snd] in *. rewrite Hl, Hv0. cbn. rewrite Z.add_0_r.
      destruct (Z.ltb_spec 0 v); [lia|]. apply IH; auto.
  Qed.
  Lemma look_forward_skip path (f : nat * source U -> bool) ms : (forall im, In im ms -> f im = false -> idle path im) ->
    forall v, 1 <= v -> look_forward (filter f ms) path v = look_forward ms path v.
  Proof.
    induction ms as [|[i m] ms IH]; intros H v Hv; cbn [filter look_forward]; [reflexivity|].
    assert (H' : forall im, In im ms -> f im = false -> idle path im) by (intros im Him; apply H; now right).
    destruct (f (i, m)) eqn:E.
    - cbn [look_forward]. destruct (s_lookup m path v); [reflexivity|]. destruct (Z.ltb_spec (v - Z.of_nat (s_versions m path)) 1); [reflexivity|].
      apply IH; auto.
    - destruct (H (i, m) ltac:(now left) E) as [Hv0 Hl]. cbn [snd] in *. rewrite Hl, Hv0. cbn. rewrite Z.sub_0_r.
      destruct (Z.ltb_spec v 1); [lia|]. apply IH; auto.
  Qed.

  Lemma filter_rev {X} (f : X -> bool) l : rev (filter f l) = filter f (rev l).
  Proof.
    induction l as [|x l IH]; cbn; [reflexivity|]. rewrite filter_app. cbn. destruct (f x); cbn; rewrite IH; [reflexivity|now rewrite app_nil_r].
  Qed.

  Lemma combine_nth_error i m : In (i, m) (combine (seq 0 (length sources)) sources) -> nth_error sources i = Some m.
  Proof.
    assert (G : forall l k, In (i, m) (combine (seq k (length l)) l) -> (k <= i)%nat /\ nth_error l (i - k) = Some m).
    { clear. induction l as [|x l IH]; intros k; cbn; [intros []|]. intros [E|H].
      - injection E as -> ->. rewrite Nat.sub_diag. split; [lia|reflexivity].
      - apply IH in H as [H1 H2]. split; [lia|]. replace (i - k)%nat with (S (i - S k)) by lia. exact H2. }
    intros H. apply G in H as [_ H]. now rewrite Nat.sub_0_r in H.
  Qed.

  (** The parent folder used when the path is not cached. *)
  Lemma parent_key loc d : Forall proper_name loc -> loc <> [] ->
    (let pf := join $"/" (split_n_init slash (written loc) (S d)) in match pf with [] => $"/" | _ => pf end)
    = written (firstn d (removelast loc)).
  Proof.
    intros Hp Hne. unfold split_n_init. rewrite split_written by assumption. cbn zeta.
    assert (E : removelast ([] :: loc) = [] :: removelast loc) by (destruct loc; [congruence|reflexivity]).
    rewrite E. cbn [firstn]. destruct (firstn d (removelast loc)) as [|x r]; reflexivity.
  Qed.

  Hypothesis Hconf : no_conflicts (filter s_immutable sources).

  Lemma left_out_idle d c loc im : cache_ok d c -> Forall proper_name loc -> loc <> [] -> (0 < d)%nat ->
    In im (combine (seq 0 (length sources)) sources) ->
    (let cached := match dget str_eqb c (written loc) with
                   | Some l => l
                   | None => match dget str_eqb c (written (firstn d (removelast loc))) with Some l => l | None => [] end
                   end in
     negb (s_immutable (snd im)) || existsb (Nat.eqb (fst im)) cached) = false ->
    idle (written loc) im.
  Proof.
    destruct im as [i m]. cbn [fst snd]. intros (C1 & C2 & C3 & C4) Hp Hne Hd Him Hf. apply combine_nth_error in Him as Hm.
    cbn zeta in Hf. apply orb_false_iff in Hf as [Hf1 Hf2]. apply negb_false_iff in Hf1.
    assert (Hin : In m sources) by (eapply nth_error_In; eassumption).
    assert (Hc : coherent m) by auto.
    assert (Hnot : forall l, existsb (Nat.eqb i) l = false -> ~ In i l).
    { intros l H Hi. enough (existsb (Nat.eqb i) l = true) by congruence. apply existsb_exists. exists i. split; [assumption|apply Nat.eqb_refl]. }
    destruct (dget str_eqb c (written loc)) as [l|] eqn:E.
    - destruct (C2 (written loc)) as (loc2 & H1 & H2 & H3); [congruence|]. apply written_inj in H3; [|assumption|assumption]. subst loc2.
      destruct l as [|j l]; [exfalso; now apply (C4 loc)|].
      assert (Hj : imm_folder j loc) by (apply (C3 loc j Hp H2); unfold getl; rewrite E; now left).
      destruct Hj as (mj & Emj & Himj & Hfj).
      assert (Hni : ~ is_folder m loc).
      { intros Hfo. apply (Hnot _ Hf2). assert (Hi : In i (getl c (written loc))) by (apply (C3 loc i Hp H2); exists m; auto).
        unfold getl in Hi. now rewrite E in Hi. }
      destruct (Hconf mj m loc) as [H|H]; auto; [apply filter_In; split; [eapply nth_error_In; eassumption|assumption]|apply filter_In; auto|contradiction].
    - set (anc := firstn d (removelast loc)) in *.
      assert (Hsplit : exists b, loc = anc ++ b /\ b <> []).
      { destruct (exists_last Hne) as (loc' & x & Ex). unfold anc. rewrite Ex. rewrite removelast_last.
        exists (skipn d loc' ++ [x]). rewrite app_assoc, firstn_skipn. split; [reflexivity|destruct (skipn d loc'); discriminate]. }
      destruct Hsplit as (b & Eb & Hb). rewrite Eb in Hp. destruct (something_prefix m anc b Hc Hp Hb) as [H|H]; [rewrite Eb; exact H|].
      exfalso. assert (Hlen : (length anc <= d)%nat) by (unfold anc; rewrite firstn_length; lia).
      assert (Hpa : Forall proper_name anc) by (apply Forall_app in Hp; tauto).
      assert (Hi : In i (getl c (written anc))) by (apply (C3 anc i Hpa Hlen); exists m; auto).
      unfold getl in Hi. now apply (Hnot _ Hf2).
  Qed.

  Lemma cached_lookup d c loc v : cache_ok d c -> Forall proper_name loc -> loc <> [] ->
    union_lookup sources c d (written loc) v =
    option_map (fun '(i, info) => Found i info)
      (if v <=? 0 then look_back (rev (combine (seq 0 (length sources)) sources)) (written loc) v
       else look_forward (combine (seq 0 (length sources)) sources) (written loc) v).
  Proof.
    intros Hok Hp Hne. unfold union_lookup.
    assert (Hs : strip slash (written loc) <> []).
    { rewrite strip_written by assumption. now apply join_nonempty. }
    destruct (strip slash (written loc)) as [|c0 s0] eqn:Es; [congruence|]. clear Es Hs.
    f_equal. destruct d as [|d].
    - assert (E : dget str_eqb c (written loc) = None).
      { destruct (dget str_eqb c (written loc)) eqn:E; [|reflexivity]. destruct Hok as (_ & C2 & _).
        destruct (C2 (written loc)) as (loc2 & H1 & H2 & H3); [congruence|]. destruct loc2; [|cbn in H2; lia].
        apply (written_root loc Hp) in H3. congruence. }
      rewrite (chosen_all sources (written loc) c E). reflexivity.
    - assert (Hch : chosen sources c (S d) (written loc) =
        filter (fun im => negb (s_immutable (snd im)) || existsb (Nat.eqb (fst im))
           (match dget str_eqb c (written loc) with
            | Some l => l
            | None => match dget str_eqb c (written (firstn (S d) (removelast loc))) with Some l => l | None => [] end
            end)) (combine (seq 0 (length sources)) sources)).
      { unfold chosen. pose proof (parent_key loc (S d) Hp Hne) as Hk. cbn zeta in Hk.
        replace (Nat.ltb 0 (S d) && starts_with $"/" (written loc)) with true by reflexivity. rewrite Hk. apply filter_ext. intros [i m]. reflexivity. }
      rewrite Hch. clear Hch. pose proof (left_out_idle (S d) c loc) as Hidle.
      destruct (Z.leb_spec v 0).
      + rewrite filter_rev. apply look_back_skip; [|assumption]. intros im Him Hf. apply in_rev in Him. apply Hidle; auto. lia.
      + apply look_forward_skip; [|lia]. intros im Him Hf. apply Hidle; auto. lia.
  Qed.

  Lemma build_cache_ok rounds stop :
    let '(c, d) := build_cache sources rounds stop in cache_ok d c \/ (d = O /\ forall loc, loc <> [] -> Forall proper_name loc -> dget str_eqb c (written loc) = None).
  Proof.
    unfold build_cache. destruct (Nat.ltb 1 (length sources)).
    - destruct start_ok as [H1 H2]. pose proof (rounds_ok rounds stop 0 _ _ H2 H1) as H. destruct (cache_rounds _ _ _ _ _ _) as [c d]. now left.
    - right. split; [reflexivity|]. intros loc H1 H2. cbn [dget]. destruct (str_eqb_spec (written loc) $"/") as [E|]; [|reflexivity].
      apply (written_root loc H2) in E. congruence.
  Qed.
End Proofs.
