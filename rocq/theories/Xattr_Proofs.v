From Coq Require Import Ascii String Sorting.Permutation.
From Verif Require Import PyBase PyDict PyStr Path_Model FileInfo Index_Model Index_Proofs Build_Proofs Xattr_Model Xattr_Spec.
Local Open Scope Z_scope.

Section Proofs.
  Context {V : Type}.
  Implicit Types (x : xattrs V).

  Definition keys_ok (keys : list (Z * str)) : Prop := NoDup (map fst keys) /\ NoDup (map snd keys).
  Definition data_ok (keys : list (Z * str)) (data : list (Z * Z * V)) : Prop :=
    NoDup (map fst data) /\ forall oh id v, In (oh, id, v) data -> In id (map fst keys).

  Lemma max_bound l : forall a, (forall z, In z l -> z <= fold_left Z.max l a) /\ a <= fold_left Z.max l a.
  Proof.
    induction l as [|y l IH]; intros a; cbn [fold_left]; [split; [intros z []|lia]|].
    destruct (IH (Z.max a y)) as [H1 H2]. split; [|lia]. intros z [<-|Hz]; [lia|auto].
  Qed.

  Lemma next_id_fresh keys : ~ In (next_id keys) (map fst keys).
  Proof. intros H. unfold next_id in H. apply (max_bound (map fst keys) 0) in H. lia. Qed.

  Lemma existsb_names keys name : existsb (fun k : Z * str => str_eqb (snd k) name) keys = true <-> In name (map snd keys).
  Proof.
    rewrite existsb_exists, in_map_iff. split; intros (k & H1 & H2); exists k.
    - apply str_eqb_eq in H2. auto.
    - subst. split; [assumption|apply str_eqb_refl].
  Qed.

  Lemma intern_ok keys name : keys_ok keys -> keys_ok (intern keys name) /\
    (forall k, In k keys -> In k (intern keys name)) /\ In name (map snd (intern keys name)) /\
    (forall n, In n (map snd (intern keys name)) <-> In n (map snd keys) \/ n = name).
  Proof.
    intros [H1 H2]. unfold intern. destruct (existsb _ keys) eqn:E.
    - apply existsb_names in E. repeat split; auto. intros [H|H]; [assumption|congruence].
    - assert (N : ~ In name (map snd keys)) by (intros H; apply existsb_names in H; congruence).
      repeat split.
      + rewrite map_app. apply nodup_snoc; [assumption|apply next_id_fresh].
      + rewrite map_app. now apply nodup_snoc.
      + intros k Hk. apply in_app_iff; now left.
      + rewrite map_app, in_app_iff. right; now left.
      + rewrite map_app, in_app_iff. cbn. intros [H|[H|[]]]; auto.
      + rewrite map_app, in_app_iff. cbn. intros [H|H]; auto.
  Qed.

  Lemma key_id_spec keys name id : keys_ok keys -> (key_id keys name = Some id <-> In (id, name) keys).
  Proof.
    intros [_ H2]. unfold key_id. induction keys as [|[i n] keys IH]; cbn [find]; [split; [discriminate|intros []]|].
    cbn in H2. inversion H2 as [|? ? Hn Hr]; subst. cbn [snd]. destruct (str_eqb_spec n name) as [->|N].
    - cbn. split; [intros E; injection E as ->; now left|]. intros [E|H]; [congruence|]. exfalso. apply Hn. apply in_map_iff. exists (id, name). auto.
    - rewrite IH by assumption. cbn. split; [now right|]. intros [E|H]; [congruence|assumption].
  Qed.

  Lemma key_id_None keys name : key_id keys name = None <-> ~ In name (map snd keys).
  Proof.
    unfold key_id. destruct (find _ keys) as [k|] eqn:E; cbn.
    - split; [discriminate|]. intros H. apply find_some in E as [E1 E2]. apply str_eqb_eq in E2. exfalso. apply H. subst. now apply in_map.
    - split; [|reflexivity]. intros _ H. apply in_map_iff in H as (k & <- & Hk). apply (find_none _ _ E) in Hk. rewrite str_eqb_refl in Hk. discriminate.
  Qed.

  Lemma view_In x oh k v : In (oh, k, v) (view x) <-> exists id, In (oh, id, v) (x_data x) /\ In (id, k) (x_keys x).
  Proof.
    unfold view. rewrite in_flat_map. split.
    - intros ([[o i] w] & Hd & H). apply in_map_iff in H as ([id n] & E & H). apply filter_In in H as [H Hi].
      cbn in E, Hi. apply Z.eqb_eq in Hi. injection E as -> -> ->. subst id. eauto.
    - intros (id & Hd & Hk). exists (oh, id, v). split; [assumption|]. apply in_map_iff. exists (id, k). split; [reflexivity|].
      apply filter_In. split; [assumption|]. apply Z.eqb_refl.
  Qed.

  Definition x_ok x : Prop := keys_ok (x_keys x) /\ data_ok (x_keys x) (x_data x).

  Lemma filter_one keys id n : NoDup (map fst keys) -> In (id, n) keys -> filter (fun k : Z * str => fst k =? id) keys = [(id, n)].
  Proof.
    induction keys as [|[i m] keys IH]; cbn; intros H; [intros []|]. inversion H as [|? ? Hn Hr]; subst. intros [E|Hin].
    - injection E as -> ->. rewrite Z.eqb_refl. f_equal.
      assert (G : forall l, ~ In id (map fst l) -> filter (fun k : Z * str => fst k =? id) l = []).
      { clear. induction l as [|[i m] l IH]; cbn; intros H; [reflexivity|]. destruct (Z.eqb_spec i id); [tauto|]. apply IH. tauto. }
      now apply G.
    - destruct (Z.eqb_spec i id) as [->|]; [exfalso; apply Hn; apply in_map_iff; exists (id, n); auto|]. auto.
  Qed.

  (** (offsetheader, key) is unique in the view. *)
  Lemma view_nodup x : x_ok x -> NoDup (map fst (view x)).
  Proof.
    intros ((K1 & K2) & D1 & D2). unfold view. revert D1 D2. generalize (x_data x) as data.
    induction data as [|[[o i] v] data IH]; intros D1 D2; cbn [flat_map]; [constructor|].
    cbn [map] in D1. inversion D1 as [|? ? Hn Hr]; subst.
    assert (Hid : In i (map fst (x_keys x))) by (apply (D2 o i v); now left).
    apply in_map_iff in Hid as ([i' n] & E & Hk). cbn in E. subst i'. rewrite (filter_one _ i n K1 Hk). cbn [map app snd fst].
    constructor; [|apply IH; [assumption|intros; eapply D2; right; eassumption]].
    intros Hin. apply in_map_iff in Hin as ([[o' n'] w] & E & Hin). cbn in E. injection E as -> ->.
    apply (view_In (mkX (x_keys x) data)) in Hin as (id & Hd & Hk2). cbn in Hd, Hk2.
    assert (id = i).
    { apply (key_id_spec (x_keys x) n id (conj K1 K2)) in Hk2. apply (key_id_spec (x_keys x) n i (conj K1 K2)) in Hk. congruence. }
    subst id. apply Hn. apply in_map_iff. exists (o, i, w). auto.
  Qed.

  Lemma put_data_In (data : list (Z * Z * V)) oh id v o i w : In (o, i, w) (put_data data oh id v) <->
    (In (o, i, w) data /\ (o, i) <> (oh, id)) \/ (o, i, w) = (oh, id, v).
  Proof.
    unfold put_data. rewrite in_app_iff, filter_In. cbn [In]. split.
    - intros [[H Hn]|[H|[]]]; [left|right; congruence]. split; [assumption|]. intros E. injection E as -> ->. rewrite !Z.eqb_refl in Hn. discriminate.
    - intros [[H Hn]|H]; [left|right; left; congruence]. split; [assumption|]. destruct (Z.eqb_spec o oh), (Z.eqb_spec i id); cbn; try reflexivity. congruence.
  Qed.

  Lemma insert_ok x e : x_ok x -> x_ok (insert_xattr x e).
  Proof.
    destruct e as [[oh key] v]. intros (HK & D1 & D2). unfold insert_xattr.
    destruct (intern_ok (x_keys x) key HK) as (HK' & Hs & _).
    assert (Hsub : forall id, In id (map fst (x_keys x)) -> In id (map fst (intern (x_keys x) key))).
    { intros id H. apply in_map_iff in H as (k & <- & Hk). apply in_map. auto. }
    destruct (key_id _ key) as [id|] eqn:E; (split; [exact HK'|]); cbn [x_keys x_data].
    - split.
      + unfold put_data. rewrite map_app. cbn [map fst]. apply nodup_snoc; [now apply nodup_filter_map|].
        intros H. apply in_map_iff in H as ([[o i] w] & E2 & H). cbn in E2. injection E2 as -> ->. apply filter_In in H as [_ H].
        rewrite !Z.eqb_refl in H. discriminate.
      + intros o i w H. apply put_data_In in H as [[H _]|H]; [apply Hsub; now apply (D2 o i w)|]. injection H as -> -> ->.
        apply key_id_spec in E; [|exact HK']. apply in_map_iff. exists (id, key). auto.
    - split; [assumption|]. intros o i w H. apply Hsub. now apply (D2 o i w).
  Qed.

  Lemma insert_view x oh key (v : V) o k w : x_ok x ->
    (In (o, k, w) (view (insert_xattr x (oh, key, v))) <->
     (In (o, k, w) (view x) /\ (o, k) <> (oh, key)) \/ (o, k, w) = (oh, key, v)).
  Proof.
    intros (HK & D1 & D2). rewrite view_In, view_In. unfold insert_xattr.
    destruct (intern_ok (x_keys x) key HK) as (HK' & Hs & Hin & Hnames).
    destruct (key_id (intern (x_keys x) key) key) as [id|] eqn:E; [|apply key_id_None in E; contradiction].
    apply key_id_spec in E; [|exact HK']. cbn [x_keys x_data]. split.
    - intros (i & Hd & Hk). apply put_data_In in Hd as [[Hd Hne]|Hd].
      + left. assert (Hk0 : In (i, k) (x_keys x)).
        { assert (Hi : In i (map fst (x_keys x))) by now apply (D2 o i w). apply in_map_iff in Hi as ([i' n] & Ei & Hi). cbn in Ei. subst i'.
          pose proof (Hs _ Hi) as Hi'. destruct HK' as [K1 K2].
          assert (n = k); [|subst; assumption].
          pose proof (filter_one _ i n K1 Hi') as F1. pose proof (filter_one _ i k K1 Hk) as F2. congruence. }
        split; [eauto|]. intros Eok. injection Eok as -> ->. apply Hne. f_equal.
        apply (key_id_spec _ key) in E; [|exact HK']. apply (key_id_spec _ key) in Hk; [|exact HK']. congruence.
      + right. injection Hd as -> -> ->. f_equal. f_equal.
        pose proof (filter_one _ id key (proj1 HK') E) as F1. pose proof (filter_one _ id k (proj1 HK') Hk) as F2. congruence.
    - intros [[(i & Hd & Hk) Hne]|Heq].
      + exists i. split; [|auto]. apply put_data_In. left. split; [assumption|]. intros Eoi. injection Eoi as -> ->. apply Hne. f_equal.
        pose proof (filter_one _ id key (proj1 HK') E) as F1. pose proof (filter_one _ id k (proj1 HK') (Hs _ Hk)) as F2. congruence.
      + injection Heq as -> -> ->. exists id. split; [apply put_data_In; now right|assumption].
  Qed.

  Lemma no_ok : x_ok no_xattrs.
  Proof. repeat split; try constructor. intros oh id v []. Qed.

  Lemma last_value_snoc (h : list (Z * str * V)) o k v oh key :
    last_value (h ++ [(o, k, v)]) oh key = if (o =? oh) && str_eqb k key then Some v else last_value h oh key.
  Proof.
    induction h as [|[[o' k'] v'] h IH]; cbn [app last_value]; [destruct ((o =? oh) && str_eqb k key); reflexivity|].
    rewrite IH. destruct ((o =? oh) && str_eqb k key); reflexivity.
  Qed.

  Lemma history_ok (h : list (Z * str * V)) : x_ok (setxattrs no_xattrs h) /\
    forall o k v, In (o, k, v) (view (setxattrs no_xattrs h)) <-> last_value h o k = Some v.
  Proof.
    induction h as [|[[oh key] w] h IH] using rev_ind.
    - split; [exact no_ok|]. intros o k v. cbn. split; [intros []|discriminate].
    - unfold setxattrs in *. rewrite fold_left_app. cbn [fold_left]. destruct IH as [H1 H2]. split; [now apply insert_ok|].
      intros o k v. rewrite insert_view by assumption. rewrite last_value_snoc, H2.
      destruct (Z.eqb_spec oh o) as [->|]; destruct (str_eqb_spec key k) as [->|]; cbn [andb]; split; intros H;
        try (destruct H as [[H Hn]|H]; congruence); try (left; split; [assumption|congruence]); right; congruence.
  Qed.

  Lemma get_correct shuffle (h : list (Z * str * V)) info oh key : (forall l, Permutation (shuffle l) l) -> entry_at info oh ->
    get_xattr shuffle (setxattrs no_xattrs h) info key = last_value h oh key.
  Proof.
    intros Hsh (below & ud & E & <- & Eg). unfold get_xattr. rewrite E, rev_app_distr. cbn [rev app]. rewrite Eg.
    destruct (history_ok h) as [_ Hv]. set (f := fun '(o, k, _) => (o =? u_offsetheader ud) && str_eqb k key).
    destruct (filter f (shuffle (view (setxattrs no_xattrs h)))) as [|[[o k] v] l] eqn:Ef.
    - destruct (last_value h (u_offsetheader ud) key) as [v|] eqn:El; [|reflexivity]. exfalso. apply Hv in El.
      assert (Hin : In (u_offsetheader ud, key, v) (filter f (shuffle (view (setxattrs no_xattrs h))))).
      { apply filter_In. split; [apply (Permutation_in _ (Permutation_sym (Hsh _))); assumption|]. cbn. now rewrite Z.eqb_refl, str_eqb_refl. }
      rewrite Ef in Hin. destruct Hin.
    - assert (Hin : In (o, k, v) (filter f (shuffle (view (setxattrs no_xattrs h))))) by (rewrite Ef; now left).
      apply filter_In in Hin as [Hin Hf]. cbn in Hf. apply andb_true_iff in Hf as [Hf1 Hf2]. apply Z.eqb_eq in Hf1. apply str_eqb_eq in Hf2. subst.
      apply (Permutation_in _ (Hsh _)) in Hin. apply Hv in Hin. now rewrite Hin.
  Qed.

  Lemma list_correct shuffle (h : list (Z * str * V)) info oh : (forall l, Permutation (shuffle l) l) -> entry_at info oh ->
    NoDup (list_xattr shuffle (setxattrs no_xattrs h) info) /\
    forall key, In key (list_xattr shuffle (setxattrs no_xattrs h) info) <-> exists v, In (oh, key, v) h.
  Proof.
    intros Hsh (below & ud & E & <- & Eg). unfold list_xattr. rewrite E, rev_app_distr. cbn [rev app]. rewrite Eg.
    destruct (history_ok h) as [Hok Hv]. set (f := fun '(o, _, _) => o =? u_offsetheader ud). split.
    - pose proof (view_nodup _ Hok) as Hnd. apply (Permutation_NoDup (Permutation_map fst (Permutation_sym (Hsh _)))) in Hnd.
      revert Hnd. generalize (shuffle (view (setxattrs no_xattrs h))) as l. induction l as [|[[o k] v] l IH]; cbn; intros H; [constructor|].
      inversion H as [|? ? Hn Hr]; subst. destruct (Z.eqb_spec o (u_offsetheader ud)) as [->|]; [|auto]. cbn. constructor; [|auto].
      intros Hin. apply Hn. apply in_map_iff in Hin as ([[o' k'] v'] & Ek & Hin). subst k'. apply filter_In in Hin as [Hin Ho].
      apply Z.eqb_eq in Ho. subst o'. apply in_map_iff. exists (u_offsetheader ud, k, v'). auto.
    - intros key. rewrite in_map_iff. split.
      + intros ([[o k] v] & -> & Hin). apply filter_In in Hin as [Hin Ho]. apply Z.eqb_eq in Ho. subst o.
        apply (Permutation_in _ (Hsh _)) in Hin. apply Hv in Hin. clear -Hin. exists v. induction h as [|[[o' k'] v'] h IH]; cbn in *; [discriminate|].
        destruct (last_value h (u_offsetheader ud) key) as [w|] eqn:El; [right; apply IH; congruence|].
        destruct (Z.eqb_spec o' (u_offsetheader ud)); [|discriminate]. destruct (str_eqb_spec k' key); [|discriminate]. left. cbn in Hin. congruence.
      + intros (v & Hin). assert (Hl : exists w, last_value h (u_offsetheader ud) key = Some w).
        { clear -Hin. induction h as [|[[o' k'] v'] h IH]; cbn in *; [destruct Hin|]. destruct Hin as [Ein|Hin].
          - injection Ein as -> -> ->. rewrite Z.eqb_refl, str_eqb_refl. destruct (last_value h (u_offsetheader ud) key); eexists; reflexivity.
          - destruct (IH Hin) as [w ->]. eauto. }
        destruct Hl as [w Hl]. apply Hv in Hl. exists (u_offsetheader ud, key, w). split; [reflexivity|]. apply filter_In.
        split; [apply (Permutation_in _ (Permutation_sym (Hsh _))); assumption|]. cbn. apply Z.eqb_refl.
  Qed.
End Proofs.
