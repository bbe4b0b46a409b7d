(** Dynamically mounted subvolumes: theorems. *)
From Coq Require Import Ascii String.
From Verif Require Import PyBase PyDict PyStr Path_Model Path_Spec Path_Proofs FileInfo Union_Model Union_Spec Tree_Source Subvol_Model Subvol_Spec Subvol_Proofs.
Local Open Scope Z_scope.

(** ** C23 *)

(** After any sequence of mount and unmount calls the replies and the visible tree are those of a table of mount points:
    a mount succeeds exactly if the mount point is available, unmounting removes exactly that mount point and returns what was mounted,
    paths at and below a mount point are answered by the mounted source for the remaining path,
    the folders are exactly the ancestors of mount points, and there is nothing else. *)
Theorem C23_history_partial {U} (ops : list (op (source U))) :
  let '(n, l) := perform_all ops empty in
  exists t, calls [] l t /\ shows_mounts n t /\ shows_folders n t /\ shows_nothing_else n t.
Proof.
  pose proof (perform_all_spec ops empty [] related_empty tidy_empty) as H. destruct (perform_all ops empty) as [n l].
  destruct H as (t & C & R & T). exists t. split; [assumption|]. split; [now apply related_shows_mounts|]. split; [now apply related_shows_folders|now apply related_shows_nothing].
Qed.
Print Assumptions C23_history_partial.

(** is_mountable tells, in such a state, whether a mount would succeed. *)
Theorem C23_is_mountable {U} (ops : list (op (source U))) path :
  let '(n, l) := perform_all ops empty in
  forall s, snd (is_mountable path n) = true <-> snd (perform (OpMount path s) n) = Mounting true.
Proof.
  pose proof (perform_all_spec ops empty [] related_empty tidy_empty) as H. destruct (perform_all ops empty) as [n l].
  destruct H as (t & C & R & T). intros s. pose proof (is_mountable_spec path n t R) as I. destruct (is_mountable path n) as [n1 b]. destruct I as (_ & I2 & I3).
  cbn [perform snd]. pose proof (mount_spec path s n t R) as M. destruct (mount path s n) as [n2 r]. destruct M as [M1 M2]. cbn [snd]. split.
  - intros ->. destruct r as [[|]|e]; [reflexivity| |]; exfalso; (destruct (M2 ltac:(discriminate)) as [_ M3]); exact (M3 T (I2 eq_refl)).
  - intros H. apply I3; [assumption|]. destruct r as [[|]|e]; [now apply M1|discriminate|discriminate].
Qed.
Print Assumptions C23_is_mountable.

(** With calls of is_mountable in between: what is mounted is still exactly what was successfully mounted and not unmounted,
    successful mounts were available, and paths at and below mount points are answered by the mounted source. *)
Theorem C23_mixed_history_partial {U} (acts : list (action (source U))) :
  let '(n, l) := perform_mixed acts empty in exists t, calls_weak [] l t /\ shows_mounts n t.
Proof.
  assert (G : forall acts n (t : table (source U)), related n t -> let '(n', l) := perform_mixed acts n in exists t', calls_weak t l t' /\ related n' t').
  { clear. induction acts as [|[o|path] acts IH]; intros n t R; cbn [perform_mixed]; [exists t; split; [constructor|assumption]| |].
    - assert (Hstep : let '(n1, a) := perform o n in (exists t1, call t o a t1 /\ related n1 t1) \/ (exists path s, o = OpMount path s /\ a = Mounting false /\ related n1 t)).
      { destruct o as [path s|path]; cbn [perform].
        - pose proof (mount_spec path s n t R) as M. destruct (mount path s n) as [n1 r]. destruct M as [M1 M2].
          destruct r as [[|]|e].
          + destruct (M1 eq_refl) as (A1 & A2 & A3). left. eexists. split; [now apply CMount|assumption].
          + destruct (M2 ltac:(discriminate)) as (-> & A2). right. exists path, s. auto.
          + destruct (M2 ltac:(discriminate)) as (-> & A2). right. exists path, s. auto.
        - pose proof (unmount_spec path n t R) as M. destruct (unmount path n) as [n1 [s|]].
          + destruct M as (A1 & t' & A2 & A3 & A4). left. exists t'. split; [now apply CUnmount|assumption].
          + destruct M as (-> & A2). left. exists t. split; [now apply CUnmountFails|assumption]. }
      destruct (perform o n) as [n1 a]. destruct Hstep as [(t1 & C & R1)|(path & s & -> & -> & R1)].
      + specialize (IH n1 t1 R1). destruct (perform_mixed acts n1) as [n2 l]. destruct IH as (t2 & Cs & R2). exists t2. split; [eapply WeakCall; eassumption|assumption].
      + specialize (IH n1 t R1). destruct (perform_mixed acts n1) as [n2 l]. destruct IH as (t2 & Cs & R2). exists t2. split; [now apply WeakFail|assumption].
    - pose proof (is_mountable_spec path n t R) as I. destruct (is_mountable path n) as [n1 b]. destruct I as (R1 & _). cbn [fst]. now apply IH. }
  specialize (G acts empty [] related_empty). destruct (perform_mixed acts empty) as [n l]. destruct G as (t & C & R). exists t. split; [assumption|]. now apply related_shows_mounts.
Qed.
Print Assumptions C23_mixed_history_partial.

Definition srcA : source unit := tree_source [([$"f"], afile 1)] true.
Definition srcB : source unit := tree_source [([$"g"], afile 2)] true.
(** Mount /a/b and /a/c/d (written with dots), refuse the overlapping /a and /a/b/x, unmount /a/b. *)
Definition sub_ops : list (op (source unit)) :=
  [OpMount $"a/b" srcA; OpMount $"/a/x/../c/./d" srcB; OpMount $"/a" srcA; OpMount $"/a/b/x" srcA; OpUnmount $"/a/b/"; OpUnmount $"/a"].
Example C23_example :
  let '(n, l) := perform_all sub_ops empty in
  map snd l = [Mounting true; Mounting true; Mounting false; Mounting false; Unmounting (Some srcA); Unmounting None] /\
  sv_lookup $"/a/c/d/g" 0 n = Some (Inside $"a/c/d" (afile 2)) /\ sv_lookup $"/a/b" 0 n = None /\ sv_lookup $"/a/c" 0 n = Some FolderInfo /\
  sv_list $"/a" n = Some (inl [$"c"]).
Proof. vm_compute. repeat split; reflexivity. Qed.

(** False with is_mountable: asking creates the parent folders, which then exist although nothing is mounted below them and even block a mount. *)
Theorem C23_is_mountable_refuted :
  exists (s : source unit), let n := fst (is_mountable $"/a/b" empty) in
    sv_lookup $"/a" 0 (@empty (source unit)) = None /\ sv_lookup $"/a" 0 n = Some FolderInfo /\
    snd (perform (OpMount $"/a" s) empty) = Mounting true /\ snd (perform (OpMount $"/a" s) n) = Mounting false.
Proof. exists srcA. vm_compute. repeat split; reflexivity. Qed.
Print Assumptions C23_is_mountable_refuted.

(** ** C24: what was looked up can be opened *)

(** For mount points in the root folder, opening a looked-up FileInfo reaches the source that produced it. *)
Theorem C24_open_partial {U} (ops : list (op (source U))) :
  let '(n, l) := perform_all ops empty in
  exists t, calls [] l t /\ forall name s rest v sub i, In ([name], s) t -> Forall proper_name rest ->
    sv_lookup (written ([name] ++ rest)) v n = Some (Inside sub i) -> s_lookup s (written rest) v = Some i /\ open_target (Some sub) n = Ok s.
Proof.
  pose proof (perform_all_spec ops empty [] related_empty tidy_empty) as H. destruct (perform_all ops empty) as [n l].
  destruct H as (t & C & R & T). exists t. split; [assumption|]. intros name s rest v sub i Hin Hrest Hlk.
  destruct (related_shows_mounts n t R [name] s rest Hin Hrest) as [Hl _]. rewrite Hl in Hlk.
  destruct (s_lookup s (written rest) v) as [j|]; [|discriminate]. cbn in Hlk. injection Hlk as <- <-. split; [reflexivity|].
  destruct R as ((d & ->) & _ & Hm & _). apply Hm in Hin. unfold mounts in Hin. cbn in Hin. unfold open_target. cbn [join]. 
  destruct (dget str_eqb d name) as [[x|d']|]; [congruence|discriminate|discriminate].
Qed.
Print Assumptions C24_open_partial.

(** False for deeper mount points: the joined mount point is no key of the root dictionary. *)
Theorem C24_open_refuted :
  exists (ops : list (op (source unit))) path sub i,
    let '(n, l) := perform_all ops empty in
    sv_lookup path 0 n = Some (Inside sub i) /\ open_target (Some sub) n = Err KeyError.
Proof. exists [OpMount $"/a/b" srcA], $"/a/b/f", $"a/b", (afile 1). vm_compute. split; reflexivity. Qed.
Print Assumptions C24_open_refuted.

(** No nested mount point can be opened, whatever is mounted: C24 fails for every mount point that has a parent. *)
Theorem C24_nested_never_opens {U} (ops : list (op (source U))) :
  let '(n, l) := perform_all ops empty in
  exists t, calls [] l t /\ forall mp s rest v sub i, In (mp, s) t -> Forall proper_name rest -> (2 <= length mp)%nat ->
    sv_lookup (written (mp ++ rest)) v n = Some (Inside sub i) -> open_target (Some sub) n = Err KeyError.
Proof.
  pose proof (perform_all_spec ops empty [] related_empty tidy_empty) as H. destruct (perform_all ops empty) as [n l].
  destruct H as (t & C & R & T). exists t. split; [assumption|]. intros mp s rest v sub i Hin Hrest Hlen Hlk.
  destruct (related_shows_mounts n t R mp s rest Hin Hrest) as [Hl _]. rewrite Hl in Hlk.
  destruct (s_lookup s (written rest) v) as [j|]; [|discriminate]. cbn [option_map] in Hlk. assert (Es : join $"/" mp = sub) by congruence. subst sub. clear Hlk.
  pose proof R as ((d & ->) & _ & Hm & Hp). unfold open_target.
  destruct (dget str_eqb d (join $"/" mp)) as [c|] eqn:E; [|reflexivity]. exfalso.
  assert (Hkey : In (join $"/" mp) (dkeys d)) by (apply (dget_In_keys str_eqb str_eqb_spec); eauto).
  apply (next_name_child (Folder d) t [] (join $"/" mp) R T (Forall_nil _) d eq_refl) in Hkey as (mp' & s' & rest' & Hin' & ->).
  apply Hp in Hin'. inversion Hin' as [|? ? Hno _]; subst. apply Hno. destruct mp as [|a [|b mp]]; cbn in Hlen; try lia.
  cbn [join]. apply in_app_iff. right. left. reflexivity.
Qed.
Print Assumptions C24_nested_never_opens.
