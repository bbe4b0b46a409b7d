From Coq Require Import Ascii String.
From Verif Require Import PyBase PyDict PyStr Path_Model Path_Spec Path_Proofs FileInfo Front_Model Front_Spec.
Local Open Scope Z_scope.

Lemma split_path_abs loc n : Forall proper_name loc -> proper_name n -> split_path (written (loc ++ [n])) = (folder_of loc, n).
Proof.
  intros Hl Hn. assert (Hp : Forall proper_name (loc ++ [n])) by (apply Forall_app; auto).
  unfold split_path. unfold written at 1. destruct (posix_normpath_abs (join $"/" (loc ++ [n]))) as [k ->].
  rewrite lstrip_repeat, join_head by apply denotes_proper.
  rewrite <- (denotes_cons_slash (join _ _)). change (slash :: join $"/" (loc ++ [n])) with (written (loc ++ [n])).
  rewrite denotes_written by assumption. change (slash :: join $"/" (loc ++ [n])) with (written (loc ++ [n])).
  now rewrite rsplit_written.
Qed.

Lemma norm_comp_name0 acc c : proper_name c -> norm_comp 0 acc c = acc ++ [c].
Proof.
  intros (H1 & H2 & H3 & _). unfold norm_comp.
  rewrite (proj2 (str_eqb_neq c []) H1), (proj2 (str_eqb_neq c $".") H2), (proj2 (str_eqb_neq c $"..") H3). reflexivity.
Qed.

Lemma norm_walk0 comps : Forall proper_name comps -> forall acc, fold_left (norm_comp 0) comps acc = acc ++ comps.
Proof.
  induction comps as [|c r IH]; intros H acc; [now rewrite app_nil_r|]. apply Forall_cons_iff in H as [Hc Hr].
  cbn [fold_left]. rewrite norm_comp_name0, IH by assumption. now rewrite <- app_assoc.
Qed.

Lemma posix_normpath_rel loc : Forall proper_name loc -> loc <> [] -> posix_normpath (join $"/" loc) = join $"/" loc.
Proof.
  intros H Hne. pose proof (join_nonempty loc H Hne) as Hj. unfold posix_normpath.
  destruct (join $"/" loc) as [|a t] eqn:E; [congruence|].
  assert (Ha : starts_with $"/" (a :: t) = false).
  { destruct (starts_with $"/" (a :: t)) eqn:S; [|reflexivity]. exfalso. apply starts_with_spec in S as [s S].
    cbn in S. injection S as -> ->. pose proof (join_head loc H) as J. rewrite E in J. change "/"%char with slash in J.
    rewrite lstrip_sep in J. pose proof (lstrip_head slash s slash s J). congruence. }
  rewrite Ha. rewrite <- E. change $"/" with [slash]. rewrite split_join by (try assumption; now apply proper_no_slash).
  rewrite norm_walk0 by assumption. cbn [app repeat]. change [slash] with $"/". rewrite E. reflexivity.
Qed.

Lemma split_path_rel loc n : Forall proper_name loc -> proper_name n ->
  split_path (join $"/" (loc ++ [n])) = (folder_of loc, n).
Proof.
  intros Hl Hn. assert (Hp : Forall proper_name (loc ++ [n])) by (apply Forall_app; auto).
  unfold split_path. rewrite posix_normpath_rel by (try assumption; destruct loc; discriminate).
  rewrite join_head by assumption. change (slash :: join $"/" (loc ++ [n])) with (written (loc ++ [n])).
  now rewrite rsplit_written.
Qed.

(** * Deletion *)
Definition deleted_at (o : front_overlay) (loc : location) (n : str) : Prop :=
  exists r, In r (fo_rows o) /\ fr_path r = folder_of loc /\ fr_name r = n /\ fr_deleted r = true.

Lemma row_at_iff f n r : row_at f n r = true <-> fr_path r = f /\ fr_name r = n.
Proof. unfold row_at. now rewrite andb_true_iff, !str_eqb_eq. Qed.

Lemma is_deleted_iff o loc n : Forall proper_name loc -> proper_name n ->
  is_deleted o (written (loc ++ [n])) = true <-> deleted_at o loc n.
Proof.
  intros Hl Hn. unfold is_deleted. rewrite split_path_abs by assumption. rewrite existsb_exists. split.
  - intros (r & Hi & H). apply andb_true_iff in H as [Hr Hd]. apply row_at_iff in Hr as []. now exists r.
  - intros (r & Hi & A & B & D). exists r. split; [assumption|]. apply andb_true_iff. split; [now apply row_at_iff|assumption].
Qed.

Lemma list_deleted_iff o loc n : Forall proper_name loc ->
  In n (list_deleted o (written loc)) <-> deleted_at o loc n \/ In n database_names.
Proof.
  intros Hl. unfold list_deleted. rewrite in_app_iff, rstrip_written by assumption. apply or_iff_compat_r.
  rewrite in_map_iff. unfold deleted_at. split.
  - intros (r & E & H). apply filter_In in H as [Hi H]. apply andb_true_iff in H as [Hp Hd]. apply str_eqb_eq in Hp.
    now exists r.
  - intros (r & Hi & A & B & D). exists r. split; [assumption|]. apply filter_In. split; [assumption|].
    apply andb_true_iff. split; [now apply str_eqb_eq|assumption].
Qed.

Lemma database_iff n : In n database_names <-> overlay_database n.
Proof. unfold database_names, overlay_database. cbn. split; intros H; repeat destruct H as [H|H]; subst; auto; contradiction. Qed.

Lemma existsb_str_In n l : existsb (str_eqb n) l = true <-> In n l.
Proof.
  rewrite existsb_exists. split.
  - intros (x & Hi & E). apply str_eqb_eq in E. now subst.
  - intros H. exists n. split; [assumption|apply str_eqb_refl].
Qed.

Section Front.
  Context {U : Type}.
  Variable lookup : str -> option (finfo U).
  Variable list_mode : str -> listing.
  Variable mount_point_of : finfo U -> str.
  Variable overlay : option front_overlay.
  Variable mount_point_mode : Z.

  Local Notation getattr := (front_getattr lookup mount_point_of overlay).
  Local Notation readdir := (front_readdir lookup list_mode mount_point_of overlay mount_point_mode).

  Lemma getattr_ok loc n : Forall proper_name loc -> proper_name n ->
    (exists s, getattr (written (loc ++ [n])) = Ok s) <->
    lookup (written (loc ++ [n])) <> None /\ (forall o, overlay = Some o -> ~ deleted_at o loc n).
  Proof.
    intros Hl Hn. unfold front_getattr, front_lookup. destruct overlay as [o|].
    - pose proof (is_deleted_iff o loc n Hl Hn) as D. destruct (is_deleted o _).
      + split; [intros [s H]; discriminate|]. intros [_ H]. exfalso. apply (H o eq_refl). now apply D.
      + destruct (lookup _) as [i|]; split; try (intros [s H]; discriminate).
        * intros _. split; [discriminate|]. intros o' [= <-] H. apply D in H. discriminate.
        * intros _. eexists. reflexivity.
        * intros [H _]. congruence.
    - destruct (lookup _) as [i|]; split; try (intros [s H]; discriminate).
      + intros _. split; [discriminate|]. intros o H. discriminate.
      + intros _. eexists. reflexivity.
      + intros [H _]. congruence.
  Qed.

  (** What [readdir] yields after the two special entries. *)
  Definition kept (path n : str) : Prop :=
    forall o, overlay = Some o -> ~ In n (list_deleted o path).

  Lemma kept_iff path n :
    negb (existsb (str_eqb n) (match overlay with Some o => list_deleted o path | None => [] end)) = true <-> kept path n.
  Proof.
    unfold kept. rewrite negb_true_iff. destruct overlay as [o|].
    - destruct (existsb _ _) eqn:E.
      + apply existsb_str_In in E. split; [discriminate|]. intros H. exfalso. now apply (H o eq_refl).
      + split; [|reflexivity]. intros _ o' [= <-] H. apply existsb_str_In in H. congruence.
    - cbn. split; [|reflexivity]. intros _ o H. discriminate.
  Qed.

  Lemma readdir_shape path l : readdir path = Ok l -> exists a b rest, l = ($".", a) :: ($"..", b) :: rest /\
    (forall n, In n (map fst rest) <-> In n (listing_names (list_mode path)) /\ kept path n) /\
    (forall n m, In (n, Some m) rest -> listed_mode (list_mode path) n m).
  Proof.
    unfold front_readdir. intros H.
    assert (Hk : forall n l0, In n (filter (fun n0 => negb (existsb (str_eqb n0)
              match overlay with Some o => list_deleted o path | None => [] end)) l0) <-> In n l0 /\ kept path n).
    { intros n l0. rewrite filter_In. now rewrite kept_iff. }
    destruct (list_mode path) as [|names|d] eqn:E.
    - injection H as <-. exists None, None, []. split; [reflexivity|]. split; [cbn; tauto|]. intros n m [].
    - injection H as <-. do 3 eexists. split; [reflexivity|]. split.
      + intros n. rewrite map_map. cbn [fst]. rewrite map_id. apply Hk.
      + intros n m Hi. apply in_map_iff in Hi as (x & [=] & _).
    - destruct (getattr path) as [here|e]; [|discriminate].
      destruct (if str_eqb path $"/" then _ else _) as [up|e]; [|discriminate]. injection H as <-.
      do 3 eexists. split; [reflexivity|]. split.
      + intros n. rewrite map_map. cbn [fst listing_names]. rewrite !in_map_iff. split.
        * intros ([k m] & <- & Hi). apply filter_In in Hi as [Hi Hf]. apply kept_iff in Hf. split; [|assumption]. now exists (k, m).
        * intros [([k m] & Ek & Hi) Hf]. cbn [fst] in Ek. subst k. exists (n, m). split; [reflexivity|]. apply filter_In. split; [assumption|].
          apply kept_iff. assumption.
      + intros n m Hi. apply in_map_iff in Hi as ([k m'] & Ek & Hi). cbn [fst snd] in Ek. injection Ek as -> ->.
        apply filter_In in Hi as [Hi _]. exists d. split; [reflexivity|assumption].
  Qed.
End Front.

(** * Dictionaries *)
Lemma value_of_dget d k : value_of d k = dget str_eqb d k.
Proof.
  induction d as [|[x v] r IH]; [reflexivity|]. cbn [value_of dget]. destruct (list_eq_dec ascii_dec x k) as [->|N].
  - now rewrite str_eqb_refl.
  - assert (E : str_eqb k x = false) by (apply str_eqb_neq; congruence).
    rewrite ?E. assert (E' : str_eqb x k = false) by (apply str_eqb_neq; congruence). rewrite ?E'. assumption.
Qed.

Lemma dget_dset_str (d : list (str * Z)) k v k0 :
  dget str_eqb (dset str_eqb d k v) k0 = if str_eqb k0 k then Some v else dget str_eqb d k0.
Proof. apply dget_dset. apply str_eqb_spec. Qed.

Definition merged (key : str) (old : option Z) (v : Z) : Z :=
  match old with
  | None => v
  | Some o => if str_eqb key $"f_bsize" || str_eqb key $"f_frsize" then Z.max o v
              else if str_eqb key $"f_namemax" then Z.min o v else o
  end.

Lemma merge_one_get result k v key :
  dget str_eqb (merge_one result (k, v)) key =
  if str_eqb key k then Some (merged k (dget str_eqb result k) v) else dget str_eqb result key.
Proof.
  unfold merge_one, merged. destruct (dget str_eqb result k) as [old|] eqn:E.
  - destruct (_ || _); [now rewrite dget_dset_str|]. destruct (str_eqb k _); [now rewrite dget_dset_str|].
    destruct (str_eqb_spec key k) as [->|N]; [assumption|reflexivity].
  - now rewrite dget_dset_str.
Qed.

Lemma merge_dict_get d : NoDup (map fst d) -> forall result key,
  dget str_eqb (fold_left merge_one d result) key =
  match value_of d key with
  | None => dget str_eqb result key
  | Some v => Some (merged key (dget str_eqb result key) v)
  end.
Proof.
  induction d as [|[k v] r IH]; intros Hd result key; [reflexivity|]. inversion Hd as [|? ? Hn Hr]; subst.
  cbn [fold_left value_of]. rewrite IH by assumption. rewrite merge_one_get.
  destruct (list_eq_dec ascii_dec k key) as [->|N].
  - rewrite str_eqb_refl. replace (value_of r key) with (@None Z); [reflexivity|].
    symmetry. rewrite value_of_dget. apply dget_None; [apply str_eqb_spec|exact Hn].
  - assert (E : str_eqb key k = false) by (apply str_eqb_neq; congruence). now rewrite E.
Qed.

Lemma merge_get_gen ds : Forall (fun d => NoDup (map fst d)) ds -> forall result key,
  dget str_eqb (fold_left (fun result s => fold_left merge_one s result) ds result) key =
  fold_left (fun old v => Some (merged key old v)) (values_of ds key) (dget str_eqb result key).
Proof.
  induction ds as [|d ds IH]; intros H result key; [reflexivity|]. apply Forall_cons_iff in H as [Hd Hr].
  cbn [fold_left]. rewrite IH by assumption. rewrite merge_dict_get by assumption.
  unfold values_of. cbn [flat_map]. destruct (value_of d key); reflexivity.
Qed.

Lemma fold_merged key vs : forall old, fold_left (fun o v => Some (merged key o v)) vs (Some old) =
  Some (fold_left (fun o v => merged key (Some o) v) vs old).
Proof. induction vs as [|v vs IH]; intros old; [reflexivity|]. cbn [fold_left]. now rewrite IH. Qed.

Lemma merge_get ds key : Forall (fun d => NoDup (map fst d)) ds ->
  value_of (merge_statfs ds) key =
  match values_of ds key with
  | [] => None
  | v :: vs => Some (fold_left (fun o v => merged key (Some o) v) vs v)
  end.
Proof.
  intros H. rewrite value_of_dget. unfold merge_statfs. rewrite merge_get_gen by assumption. cbn [dget].
  destruct (values_of ds key) as [|v vs]; [reflexivity|]. cbn [fold_left merged]. apply fold_merged.
Qed.

Lemma fold_first vs : forall v, fold_left (fun (o : Z) (_ : Z) => o) vs v = v.
Proof. induction vs as [|x vs IH]; intros v; [reflexivity|]. apply IH. Qed.

Lemma fold_left_ext {X Y} (f g : X -> Y -> X) (l : list Y) : (forall a b, f a b = g a b) -> forall a, fold_left f l a = fold_left g l a.
Proof. intros E. induction l as [|y l IH]; intros a; [reflexivity|]. cbn [fold_left]. now rewrite E, IH. Qed.

Lemma at_least_get d k key : value_of (at_least d k) key =
  if str_eqb key k then Some (Z.max (match value_of d k with Some v => v | None => 0 end) MINIMUM_BLOCK_SIZE) else value_of d key.
Proof. rewrite !value_of_dget. unfold at_least. now rewrite dget_dset_str. Qed.
