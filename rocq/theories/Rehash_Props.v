(** C112: check sums over several mounts. *)
From Coq Require Import Ascii String Sorting.Permutation.
From Verif Require Import PyBase PyDict PyStr FileInfo Index_Model Index_Spec Xattr_Model Xattr_Spec Xattr_Proofs Hash_Model Hash_Spec Hash_Proofs Rehash_Model.
Local Open Scope Z_scope.

(** What hashing a file gives: the algorithms that are supported have a value; a file that cannot be read has nothing. *)
Definition hashes_right (value : row -> str -> option str) (m : mount) : Prop :=
  forall r c, m_computed m r = Some c -> NoDup (map fst c) /\ forall a v, In (a, v) c <-> In a (m_hashes m) /\ value r a = Some v.
Definition good_mount (value : row -> str -> option str) (m : mount) : Prop := any_order (m_shuffle m) /\ hashes_right value m.

Lemma run_values files value m h e : any_order (m_shuffle m) -> hashes_right value m ->
  In e (run (m_hashes m) (m_computed m) (m_shuffle m) files h) ->
  exists r a v, In r files /\ eligible r /\ value r a = Some v /\ e = (r_offsetheader r, xattr_key a, v).
Proof.
  intros Hs Hv I. destruct (run_from (m_hashes m) (m_computed m) files h (run (m_hashes m) (m_computed m) (m_shuffle m) files h) e) as (r & c & a & v & Ir & El & Ec & Iv & E); [|exact I|].
  { exists (m_shuffle m), (m_computed m). auto. }
  exists r, a, v. split; [exact Ir|]. split; [exact El|]. split; [|exact E]. now apply (Hv r c Ec).
Qed.

Lemma after_values files own tar value ms : Forall (good_mount value) ms -> forall h, after files own tar ms = Some h ->
  forall e, In e h -> In e own \/ exists r a v, In r files /\ eligible r /\ value r a = Some v /\ e = (r_offsetheader r, xattr_key a, v).
Proof.
  intros F. unfold after. assert (forall st, (forall h, st = Some h -> forall e, In e h -> In e own \/ exists r a v, In r files /\ eligible r /\ value r a = Some v /\ e = (r_offsetheader r, xattr_key a, v)) ->
    forall h, fold_left (mount_step files own tar) ms st = Some h -> forall e, In e h -> In e own \/ exists r a v, In r files /\ eligible r /\ value r a = Some v /\ e = (r_offsetheader r, xattr_key a, v)) as K.
  { induction F as [|m ms [Hs Hv] F IH]; intros st H h E; [now apply H|]. cbn [fold_left] in E. refine (IH _ _ h E). clear IH E h. intros h E e I.
    assert (forall h0, (forall e, In e h0 -> In e own \/ exists r a v, In r files /\ eligible r /\ value r a = Some v /\ e = (r_offsetheader r, xattr_key a, v)) ->
      In e (hashing files h0 m) -> In e own \/ exists r a v, In r files /\ eligible r /\ value r a = Some v /\ e = (r_offsetheader r, xattr_key a, v)) as Q.
    { intros h0 H0 J. unfold hashing in J. apply in_app_or in J as [J|J]; [now apply H0|]. right. apply (run_values files value m h0 e Hs Hv).
      destruct (m_cut m) as [n|]; [|exact J]. rewrite <- (firstn_skipn n). apply in_or_app. left. exact J. }
    unfold mount_step in E. destruct st as [h0|]; injection E as <-.
    - destruct tar; [now apply (H h0)|]. apply (Q h0); [now apply H|exact I].
    - apply (Q own); [auto|exact I]. }
  apply K. discriminate.
Qed.

(** For all archives but TAR archives: after any mounts, interrupted or not, with whatever lists of algorithms, and then a mount that is
    not interrupted, every regular file with its own header number that can be read then has the check sums that were asked for then, with
    the right values (none for an algorithm that is not supported). *)
Theorem C112_hashes (files : list row) (own : list (Z * str * str)) (value : row -> str -> option str) (ms : list mount) (m : mount) :
  (forall oh k v a, In (oh, k, v) own -> k <> $"user.hash." ++ a) ->
  Forall (good_mount value) (ms ++ [m]) -> m_cut m = None ->
  exists h, after files own false (ms ++ [m]) = Some h /\
  forall shuffle' r, (forall l, Permutation (shuffle' l) l) -> In r files -> eligible r -> own_number files r -> m_computed m r <> None ->
  forall a, In a (m_hashes m) -> get_xattr shuffle' (setxattrs no_xattrs h) (row_to_file_info r) ($"user.hash." ++ a) = value r a.
Proof.
  intros H0 F Cut. pose proof F as F'. apply Forall_app in F' as [Fs Fm]. apply Forall_cons_iff in Fm as [[Hs Hv] _].
  assert (exists h, after files own false (ms ++ [m]) = Some (h ++ run (m_hashes m) (m_computed m) (m_shuffle m) files h)) as (h & E).
  { unfold after. rewrite fold_left_app. cbn [fold_left]. unfold mount_step at 1, hashing. rewrite Cut. destruct (fold_left (mount_step files own false) ms None) as [h|]; [exists h|exists own]; reflexivity. }
  eexists. split; [exact E|]. intros shuffle' r Hs' Ir El Own Rd a Ia.
  rewrite (get_correct shuffle' _ (row_to_file_info r) (r_offsetheader r)); [|exact Hs'|].
  2: { exists [], (mkTD (r_offset r) (r_offsetheader r) (r_istar r) (r_issparse r) (r_isgenerated r) (r_recursiondepth r)). cbn. split; [reflexivity|]. split; [reflexivity|]. apply El. }
  change ($"user.hash." ++ a) with (xattr_key a) in *. assert (m_hashes m <> []) as Ne by (intros Q; rewrite Q in Ia; destruct Ia).
  assert (forall w, In (r_offsetheader r, xattr_key a, w) (h ++ run (m_hashes m) (m_computed m) (m_shuffle m) files h) -> value r a = Some w) as Right.
  { intros w I. destruct (after_values files own false value _ F _ E _ I) as [J|(r' & a' & v' & Ir' & El' & V & Q)]; [exfalso; exact (H0 _ _ _ a J eq_refl)|].
    injection Q as Q1 Q2 Q3. subst a' v'. rewrite (Own r' Ir' El' (eq_sym Q1)) in V. exact V. }
  destruct (m_computed m r) as [c|] eqn:Ec; [|congruence].
  destruct (last_value _ (r_offsetheader r) (xattr_key a)) as [v|] eqn:L; [symmetry; apply Right; now apply last_value_in|].
  destruct (value r a) as [v|] eqn:V; [exfalso|reflexivity]. assert (In (a, v) c) as Iv by (apply (Hv r c Ec); auto).
  assert (exists w, In (r_offsetheader r, xattr_key a, w) (h ++ run (m_hashes m) (m_computed m) (m_shuffle m) files h)) as [w I]; [|exact (last_value_some _ _ _ _ I L)].
  destruct (Z.lt_ge_cases (stored_count (m_hashes m) (setxattrs no_xattrs h) r) (len (m_hashes m))) as [C|C].
  - exists v. apply in_or_app. right. unfold run. rewrite (calls_concat (m_hashes m) (m_computed m) (m_shuffle m) files) by exact Ne. apply in_flat_map. exists r. split; [now apply pending_in|].
    unfold written_by. rewrite Ec. unfold entries_of. apply in_map_iff. now exists (a, v).
  - pose proof (count_complete (m_hashes m) (m_computed m) h r a C Ia) as K. destruct (last_value h (r_offsetheader r) (xattr_key a)) as [w|] eqn:Lh; [|contradiction]. exists w. apply in_or_app. left. now apply last_value_in.
Qed.
Print Assumptions C112_hashes.

(** For every kind of archive: check sums that are shown are right, whatever was interrupted. *)
Theorem C112_right (files : list row) (own : list (Z * str * str)) (tar : bool) (value : row -> str -> option str) (ms : list mount) h :
  (forall oh k v a, In (oh, k, v) own -> k <> $"user.hash." ++ a) -> Forall (good_mount value) ms -> after files own tar ms = Some h ->
  forall shuffle' r, (forall l, Permutation (shuffle' l) l) -> In r files -> eligible r -> own_number files r ->
  forall a v, get_xattr shuffle' (setxattrs no_xattrs h) (row_to_file_info r) ($"user.hash." ++ a) = Some v -> value r a = Some v.
Proof.
  intros H0 F E shuffle' r Hs' Ir El Own a v G. rewrite (get_correct shuffle' _ (row_to_file_info r) (r_offsetheader r)) in G; [|exact Hs'|].
  2: { exists [], (mkTD (r_offset r) (r_offsetheader r) (r_istar r) (r_issparse r) (r_isgenerated r) (r_recursiondepth r)). cbn. split; [reflexivity|]. split; [reflexivity|]. apply El. }
  apply last_value_in in G. destruct (after_values files own tar value _ F _ E _ G) as [J|(r' & a' & v' & Ir' & El' & V & Q)]; [exfalso; exact (H0 _ _ _ a J eq_refl)|].
  injection Q as Q1 Q2 Q3. subst a' v'. now rewrite (Own r' Ir' El' (eq_sym Q1)) in V.
Qed.
Print Assumptions C112_right.

(** A TAR archive: as long as the mount that makes the index is the one that asks for the check sums and it is not interrupted. *)
Theorem C112_tar_partial (files : list row) (own : list (Z * str * str)) (value : row -> str -> option str) (m : mount) (later : list mount) :
  (forall oh k v a, In (oh, k, v) own -> k <> $"user.hash." ++ a) ->
  good_mount value m -> m_cut m = None ->
  exists h, after files own true (m :: later) = Some h /\
  forall shuffle' r, (forall l, Permutation (shuffle' l) l) -> In r files -> eligible r -> own_number files r -> m_computed m r <> None ->
  forall a, In a (m_hashes m) -> get_xattr shuffle' (setxattrs no_xattrs h) (row_to_file_info r) ($"user.hash." ++ a) = value r a.
Proof.
  intros H0 G Cut. destruct (C112_hashes files own value [] m H0) as (h & E & K); [constructor; [exact G|constructor]|exact Cut|].
  exists h. split; [|exact K]. unfold after in *. cbn [app fold_left] in E |- *. change (mount_step files own true None m) with (mount_step files own false None m). rewrite E.
  clear. induction later as [|m' later IH]; [reflexivity|]. cbn [fold_left mount_step]. exact IH.
Qed.
Print Assumptions C112_tar_partial.

(** Not so, wanted: the same as in C112_hashes for TAR archives.  With an index that exists, neither hashing that was interrupted is
    resumed nor further algorithms are computed. *)
Definition ex_row (name : str) (oh : Z) : row := mkRow [] name oh (oh + 512) 3 0 33188 48 [] 0 0 false false false 0.
Definition ex_files : list row := [ex_row $"a" 0; ex_row $"b" 1024].
Definition ex_value (r : row) (a : str) : option str := if str_eqb a $"md5" then Some (r_name r ++ $"1") else if str_eqb a $"sha1" then Some (r_name r ++ $"2") else None.
Definition ex_mount (hashes : list str) (cut : option nat) : mount :=
  mkMount hashes (fun r => Some (flat_map (fun a => match ex_value r a with Some v => [(a, v)] | None => [] end) hashes)) (fun l => l) cut.
Lemma ex_good hashes cut : NoDup hashes -> good_mount ex_value (ex_mount hashes cut).
Proof.
  intros N. split; [intros l; apply Permutation_refl|]. intros r c E. injection E as <-. split.
  - induction N as [|a l Na N IH]; [constructor|]. cbn [flat_map]. rewrite map_app. destruct (ex_value r a) as [v|]; [|exact IH]. cbn [map app fst]. constructor; [|exact IH].
    intros I. apply in_map_iff in I as ([b w] & E & I). cbn in E. subst b. apply in_flat_map in I as (x & Ix & I). destruct (ex_value r x); [|destruct I]. destruct I as [I|[]]. injection I as -> _. contradiction.
  - intros a v. split.
    + intros I. apply in_flat_map in I as (x & Ix & I). destruct (ex_value r x) as [w|] eqn:V; [|destruct I]. destruct I as [I|[]]. injection I as <- <-. auto.
    + intros [Ia V]. apply in_flat_map. exists a. split; [exact Ia|]. rewrite V. now left.
Qed.

Definition C112_tar_wanted : Prop := forall (files : list row) (own : list (Z * str * str)) (value : row -> str -> option str) (ms : list mount) (m : mount),
  (forall oh k v a, In (oh, k, v) own -> k <> $"user.hash." ++ a) ->
  Forall (good_mount value) (ms ++ [m]) -> m_cut m = None ->
  exists h, after files own true (ms ++ [m]) = Some h /\
  forall shuffle' r, (forall l, Permutation (shuffle' l) l) -> In r files -> eligible r -> own_number files r -> m_computed m r <> None ->
  forall a, In a (m_hashes m) -> get_xattr shuffle' (setxattrs no_xattrs h) (row_to_file_info r) ($"user.hash." ++ a) = value r a.
Lemma ex_own : own_number ex_files (ex_row $"b" 1024).
Proof. intros r' [<-|[<-|[]]] E1 E2; [discriminate|reflexivity]. Qed.
Theorem C112_tar_resumed_refuted : ~ (forall ms, (forall m, In m ms -> m_hashes m = [$"md5"]) -> 
  forall m, m_hashes m = [$"md5"] -> m_cut m = None -> Forall (good_mount ex_value) (ms ++ [m]) ->
  exists h, after ex_files [] true (ms ++ [m]) = Some h /\ get_xattr (fun l => l) (setxattrs no_xattrs h) (row_to_file_info (ex_row $"b" 1024)) $"user.hash.md5" = Some $"b1").
Proof.
  intros H. destruct (H [ex_mount [$"md5"] (Some 1%nat)]) with (m := ex_mount [$"md5"] None) as (h & E & G).
  - intros m [<-|[]]. reflexivity.
  - reflexivity.
  - reflexivity.
  - repeat (apply Forall_cons; [apply ex_good; constructor; [intros []|constructor]|]). constructor.
  - vm_compute in E. injection E as <-. vm_compute in G. discriminate G.
Qed.
Print Assumptions C112_tar_resumed_refuted.
Theorem C112_tar_refuted : ~ C112_tar_wanted.
Proof.
  intros H. destruct (H ex_files [] ex_value [ex_mount [$"md5"] None] (ex_mount [$"sha1"] None)) as (h & E & K).
  - intros oh k v a [].
  - repeat (apply Forall_cons; [apply ex_good; constructor; [intros []|constructor]|]). constructor.
  - reflexivity.
  - specialize (K (fun l => l) (ex_row $"b" 1024) (fun l => Permutation_refl l)).
    assert (In (ex_row $"b" 1024) ex_files) as I by (right; now left). specialize (K I (conj eq_refl eq_refl) ex_own ltac:(discriminate) $"sha1" ltac:(now left)).
    vm_compute in E. injection E as <-. vm_compute in K. discriminate K.
Qed.
Print Assumptions C112_tar_refuted.

(** Not so, wanted: what is complete is not computed again.  With one algorithm that is not supported among those asked for, no file is
    ever complete, and each mount reads and hashes all files again. *)
Theorem C112_once_refuted : ~ forall hashes files m, NoDup hashes -> m_hashes m = hashes -> m_cut m = None -> good_mount ex_value m ->
  (forall r, In r files -> m_computed m r <> None) ->
  hashing files (hashing files [] m) m = hashing files [] m.
Proof.
  intros H. set (hs := [$"md5"; $"md5sum"]). assert (NoDup hs) as N by (repeat constructor; cbn; [intros [[=]|[]]|intros []]).
  specialize (H hs ex_files (ex_mount hs None) N eq_refl eq_refl (ex_good _ _ N) ltac:(discriminate)). vm_compute in H. discriminate H.
Qed.
Print Assumptions C112_once_refuted.

(** A history of three mounts, the first of which is interrupted. *)
Example C112_case :
  let ms := [ex_mount [$"md5"] (Some 1%nat); ex_mount [$"sha1"] (Some 1%nat); ex_mount [$"md5"; $"sha1"] None] in
  Forall (good_mount ex_value) ms /\
  after ex_files [(1024, $"user.x", $"y")] false ms = Some
    [(1024, $"user.x", $"y"); (0, $"user.hash.md5", $"a1"); (0, $"user.hash.sha1", $"a2"); (1024, $"user.hash.md5", $"b1"); (1024, $"user.hash.sha1", $"b2")].
Proof.
  split; [|vm_compute; reflexivity].
  apply Forall_cons; [apply ex_good; repeat constructor; intros []|]. apply Forall_cons; [apply ex_good; repeat constructor; intros []|]. apply Forall_cons; [apply ex_good|constructor].
  constructor; [intros [[=]|[]]|]. constructor; [intros []|constructor].
Qed.
