From Coq Require Import Ascii String.
From Verif Require Import PyBase PyDict PyStr Path_Model Path_Spec Path_Proofs FileInfo Union_Model Subvol_Model Subvol_Spec.
Local Open Scope Z_scope.

Notation sget := (dget str_eqb).
Notation sset := (dset str_eqb).
Notation sdel := (ddel str_eqb).

Lemma dset_same {V} (d : list (str * V)) k v : sget d k = Some v -> sset d k v = d.
Proof.
  induction d as [|[k' v'] r IH]; cbn; [discriminate|]. destruct (str_eqb_spec k k') as [->|N]; [congruence|]. intros H. now rewrite IH.
Qed.
Lemma dset_nonempty {V} (d : list (str * V)) k v : sset d k v <> [].
Proof. destruct d as [|[k' v'] r]; cbn; [discriminate|]. destruct (str_eqb k k'); discriminate. Qed.
Lemma proper_ne p : proper_name p -> str_eqb p [] = false.
Proof. intros H. apply str_eqb_neq. apply H. Qed.

(** ** Paths *)
Lemma parent_and_name_spec path :
  parent_and_name path = match denotes path with [] => ([], []) | _ => (folder_of (removelast (denotes path)), last (denotes path) []) end.
Proof.
  unfold parent_and_name. destruct (posix_normpath_abs path) as [k E]. rewrite E. clear E.
  pose proof (denotes_proper path) as Hp. set (loc := denotes path) in *. clearbody loc.
  assert (Hs : strip slash (repeat slash (S k) ++ join $"/" loc) = join $"/" loc).
  { unfold strip. rewrite lstrip_repeat, join_head by assumption. destruct loc as [|x r]; [reflexivity|].
    pose proof (strip_written (x :: r) Hp ltac:(discriminate)) as H. unfold strip, written in H. rewrite lstrip_sep, join_head in H by assumption. exact H. }
  rewrite Hs. change (slash :: join $"/" loc) with (written loc). destruct loc as [|x r]; [reflexivity|].
  destruct (@exists_last _ (x :: r)) as (l & n & E); [discriminate|]. rewrite E in *. rewrite removelast_last, last_last.
  apply Forall_app in Hp as [H1 H2]. inversion H2; subst. rewrite rsplit_written by assumption. destruct l; reflexivity.
Qed.
Lemma strip_norm path : strip slash (posix_normpath (slash :: path)) = join $"/" (denotes path).
Proof.
  destruct (posix_normpath_abs path) as [k E]. rewrite E. pose proof (denotes_proper path) as Hp. set (loc := denotes path) in *. clearbody loc.
  unfold strip. rewrite lstrip_repeat, join_head by assumption. destruct loc as [|x r]; [reflexivity|].
  pose proof (strip_written (x :: r) Hp ltac:(discriminate)) as H. unfold strip, written in H. rewrite lstrip_sep, join_head in H by assumption. exact H.
Qed.
Lemma parts_written loc : Forall proper_name loc -> parts_of (written loc) = match loc with [] => [[]] | _ => loc end.
Proof.
  intros H. unfold parts_of. destruct loc as [|x r]; [reflexivity|]. rewrite strip_written by (assumption || discriminate). apply split_join; [discriminate|]. now apply proper_no_slash.
Qed.
Lemma parts_folder loc : Forall proper_name loc -> parts_of (folder_of loc) = match loc with [] => [[]] | _ => loc end.
Proof. intros H. destruct loc as [|x r]; [reflexivity|]. exact (parts_written (x :: r) H). Qed.
Lemma parts_join loc : Forall proper_name loc -> parts_of (join $"/" loc) = match loc with [] => [[]] | _ => loc end.
Proof.
  intros H. destruct loc as [|x r]; [reflexivity|]. unfold parts_of.
  pose proof (strip_written (x :: r) H ltac:(discriminate)) as E. unfold strip, written in E. rewrite lstrip_sep in E. unfold strip.
  rewrite E. apply split_join; [discriminate|]. now apply proper_no_slash.
Qed.

Section Proofs.
  Context {S : Type}.
  Notation node := (node S).

  Fixpoint at_loc (loc : location) (n : node) : option node :=
    match loc with
    | [] => Some n
    | p :: r => match n with Folder d => match sget d p with Some c => at_loc r c | None => None end | Mounted _ => None end
    end.
  Definition mounts (n : node) (loc : location) (s : S) : Prop := at_loc loc n = Some (Mounted s).
  Definition unique (n : node) : Prop := forall loc d, at_loc loc n = Some (Folder d) -> NoDup (dkeys d).
  Definition tidy (n : node) : Prop := forall loc d, loc <> [] -> at_loc loc n = Some (Folder d) -> d <> [].

  Lemma unique_child d p c : unique (Folder d) -> sget d p = Some c -> unique c.
  Proof. intros H E loc d' H'. apply (H (p :: loc)). cbn. now rewrite E. Qed.
  Lemma tidy_child d p c : tidy (Folder d) -> sget d p = Some c -> tidy c /\ (forall d', c = Folder d' -> d' <> []).
  Proof.
    intros H E. split.
    - intros loc d' Hl H'. apply (H (p :: loc)); [discriminate|]. cbn. now rewrite E.
    - intros d' ->. apply (H [p]); [discriminate|]. cbn. now rewrite E.
  Qed.
  Lemma unique_set d p c : unique (Folder d) -> unique c -> unique (Folder (sset d p c)).
  Proof.
    intros Hd Hc loc d' H. destruct loc as [|q loc].
    - cbn in H. injection H as <-. apply (NoDup_dset str_eqb str_eqb_spec). now apply (Hd []).
    - cbn in H. rewrite (dget_dset str_eqb str_eqb_spec) in H. destruct (str_eqb_spec q p) as [->|N]; [now apply (Hc loc)|]. apply (Hd (q :: loc)). exact H.
  Qed.
  Lemma tidy_set d p c : tidy (Folder d) -> tidy c -> (forall d', c = Folder d' -> d' <> []) -> tidy (Folder (sset d p c)).
  Proof.
    intros Hd Hc Hc2 loc d' Hl H. destruct loc as [|q loc]; [congruence|]. cbn in H. rewrite (dget_dset str_eqb str_eqb_spec) in H.
    destruct (str_eqb_spec q p) as [->|N].
    - destruct loc as [|x loc]; [cbn in H; injection H as ->; now apply Hc2|]. now apply (Hc (x :: loc)).
    - apply (Hd (q :: loc)); [discriminate|exact H].
  Qed.
  Lemma mounts_set d p c loc s : mounts (Folder (sset d p c)) loc s <->
    match loc with [] => False | q :: r => if str_eqb q p then mounts c r s else mounts (Folder d) loc s end.
  Proof.
    destruct loc as [|q r]; unfold mounts; cbn; [split; [discriminate|tauto]|]. rewrite (dget_dset str_eqb str_eqb_spec).
    destruct (str_eqb_spec q p) as [->|N]; reflexivity.
  Qed.

  (** ** mount *)
  Definition mount_use (name : str) (target : S) (n : node) : node * bool :=
    match n with
    | Mounted _ => (n, false)
    | Folder d => if dmem str_eqb d name then (n, false) else (Folder (sset d name (Mounted target)), true)
    end.
  Definition clash (n : node) (loc : location) : Prop :=
    (exists mp s, mounts n mp s /\ within mp loc) \/ (exists d, at_loc loc n = Some (Folder d)).

  Lemma mount_at_spec name target loc : proper_name name -> Forall proper_name loc -> forall n, unique n ->
    let '(n', r) := get_by_path true (mount_use name target) loc n in
    match r with
    | Reached _ true => (forall l s, mounts n' l s <-> mounts n l s \/ (l = loc ++ [name] /\ s = target)) /\ unique n' /\
        (tidy n -> tidy n') /\ (exists d, n' = Folder d /\ d <> []) /\ ~ clash n (loc ++ [name])
    | _ => n' = n /\ clash n (loc ++ [name])
    end.
  Proof.
    intros Hname. induction loc as [|p loc IH]; intros Hl n Hu; cbn [get_by_path].
    - destruct n as [s|d]; cbn [mount_use].
      + split; [reflexivity|]. left. exists [], s. split; [reflexivity|]. now exists [name].
      + destruct (dmem str_eqb d name) eqn:E.
        * split; [reflexivity|]. unfold dmem in E. destruct (sget d name) as [[s|d']|] eqn:Eg; [| |discriminate].
          -- left. exists [name], s. split; [unfold mounts; cbn; now rewrite Eg|]. exists []. now rewrite app_nil_r.
          -- right. exists d'. cbn. now rewrite Eg.
        * assert (Eg : sget d name = None) by (unfold dmem in E; destruct (sget d name); [discriminate|reflexivity]).
          split; [|split; [|split; [|split]]].
          -- intros l s. rewrite mounts_set. destruct l as [|q r]; [unfold mounts; cbn; intuition discriminate|].
             destruct (str_eqb_spec q name) as [->|N].
             ++ unfold mounts. destruct r as [|x r]; cbn; rewrite Eg; split; intros H; try discriminate.
                ** right. split; [reflexivity|]. congruence.
                ** destruct H as [H|[_ H]]; [discriminate|congruence].
                ** destruct H as [H|[H _]]; discriminate.
             ++ split; [now left|]. intros [H|[H _]]; [assumption|]. cbn in H. congruence.
          -- apply unique_set; [assumption|]. intros [|x r] d' H; [discriminate|]. cbn in H. discriminate.
          -- intros Ht. apply tidy_set; [assumption| |discriminate]. intros [|x r] d' Hx H; [congruence|]. discriminate H.
          -- eexists. split; [reflexivity|]. apply dset_nonempty.
          -- intros [(mp & s & H & (rest & Hr))|[d' H]].
             ++ destruct mp as [|x mp]; [discriminate H|]. injection Hr as <- _. unfold mounts in H. cbn in H. rewrite Eg in H. discriminate.
             ++ cbn in H. rewrite Eg in H. discriminate.
    - inversion Hl as [|? ? Hp Hl']; subst. rewrite proper_ne by assumption. destruct n as [s|d].
      + split; [reflexivity|]. left. exists [], s. split; [reflexivity|]. now exists ((p :: loc) ++ [name]).
      + destruct (sget d p) as [c|] eqn:Eg.
        * specialize (IH Hl' c (unique_child d p c Hu Eg)). destruct (get_by_path true (mount_use name target) loc c) as [c' r].
          assert (Hc : clash c (loc ++ [name]) <-> clash (Folder d) ((p :: loc) ++ [name])).
          { split.
            - intros [(mp & s & H & (rest & Hr))|[d' H]]; [left; exists (p :: mp), s|right; exists d'].
              + split; [unfold mounts; cbn; now rewrite Eg|]. exists rest. cbn. now rewrite Hr.
              + cbn. now rewrite Eg.
            - intros [(mp & s & H & (rest & Hr))|[d' H]].
              + destruct mp as [|q mp]; [discriminate H|]. injection Hr as <- Hr. left. exists mp, s. unfold mounts in H. cbn in H. rewrite Eg in H. split; [exact H|]. now exists rest.
              + right. exists d'. cbn in H. now rewrite Eg in H. }
          destruct r as [[|]| |]; try (destruct IH as [-> IH]; rewrite dset_same by assumption; split; [reflexivity|tauto]).
          destruct IH as (I1 & I2 & I3 & (dc & -> & Hdc) & I5). split; [|split; [|split; [|split]]].
          -- intros l s. rewrite mounts_set. destruct l as [|q l]; [unfold mounts; cbn; intuition discriminate|].
             destruct (str_eqb_spec q p) as [->|N].
             ++ rewrite I1. unfold mounts at 2. cbn [at_loc]. rewrite Eg. unfold mounts. cbn [app]. split; (intros [H|[H1 H2]]; [now left|right]); (split; [congruence|assumption]).
             ++ split; [now left|]. intros [H|[H _]]; [assumption|]. cbn in H. congruence.
          -- now apply unique_set.
          -- intros Ht. destruct (tidy_child _ _ _ Ht Eg) as [T1 _]. apply tidy_set; [assumption|auto|]. intros d' E. now injection E as <-.
          -- eexists. split; [reflexivity|]. apply dset_nonempty.
          -- now rewrite <- Hc.
        * assert (Hue : unique (Folder [])) by (intros [|x r] d' H; cbn in H; [injection H as <-; constructor|discriminate]).
          specialize (IH Hl' (Folder []) Hue). destruct (get_by_path true (mount_use name target) loc (Folder [])) as [c' r].
          assert (Hno : ~ clash (Folder []) (loc ++ [name])).
          { intros [(mp & s & H & _)|[d' H]]; [destruct mp; discriminate H|]. destruct loc; discriminate H. }
          destruct r as [[|]| |]; try (destruct IH as [_ IH]; contradiction).
          destruct IH as (I1 & I2 & I3 & (dc & -> & Hdc) & I5). split; [|split; [|split; [|split]]].
          -- intros l s. rewrite mounts_set. destruct l as [|q l]; [unfold mounts; cbn; intuition discriminate|].
             destruct (str_eqb_spec q p) as [->|N].
             ++ rewrite I1. unfold mounts. cbn [at_loc app]. rewrite Eg. split.
                ** intros [H|[H1 H2]]; [destruct l; discriminate H|right; split; congruence].
                ** intros [H|[H1 H2]]; [discriminate|right; split; [congruence|assumption]].
             ++ split; [now left|]. intros [H|[H _]]; [assumption|]. cbn in H. congruence.
          -- now apply unique_set.
          -- intros Ht. apply tidy_set; [assumption|apply I3; intros [|x r] d' Hx H; [congruence|discriminate H]|]. intros d' E. now injection E as <-.
          -- eexists. split; [reflexivity|]. apply dset_nonempty.
          -- intros [(mp & s & H & (rest & Hr))|[d' H]].
             ++ destruct mp as [|q mp]; [discriminate H|]. injection Hr as <- Hr. unfold mounts in H. cbn in H. rewrite Eg in H. discriminate.
             ++ cbn in H. rewrite Eg in H. discriminate.
  Qed.

  (** ** is_mountable *)
  Definition free_use (name : str) (n : node) : node * bool := (n, match n with Folder d => negb (dmem str_eqb d name) | Mounted _ => false end).
  Lemma free_at_spec name loc : proper_name name -> Forall proper_name loc -> forall n, unique n ->
    let '(n', r) := get_by_path true (free_use name) loc n in
    (forall l s, mounts n' l s <-> mounts n l s) /\ unique n' /\ (forall s, n' = Mounted s -> n = Mounted s) /\
    (match r with Reached _ b => b | _ => false end = true <-> ~ clash n (loc ++ [name])).
  Proof.
    intros Hname. induction loc as [|p loc IH]; intros Hl n Hu; cbn [get_by_path].
    - cbn [free_use]. split; [reflexivity|]. split; [assumption|]. split; [auto|]. destruct n as [s|d]; cbn [app].
      + split; [discriminate|]. intros H. exfalso. apply H. left. exists [], s. split; [reflexivity|]. now exists [name].
      + unfold dmem. destruct (sget d name) as [c|] eqn:Eg; cbn [negb].
        * split; [discriminate|]. intros H. exfalso. apply H. destruct c as [s|d']; [left; exists [name], s|right; exists d'].
          -- split; [unfold mounts; cbn; now rewrite Eg|]. exists []. reflexivity.
          -- cbn. now rewrite Eg.
        * split; [|reflexivity]. intros _ [(mp & s & H & (rest & Hr))|[d' H]].
          -- destruct mp as [|x mp]; [discriminate H|]. injection Hr as <- _. unfold mounts in H. cbn in H. rewrite Eg in H. discriminate.
          -- cbn in H. rewrite Eg in H. discriminate.
    - inversion Hl as [|? ? Hp Hl']; subst. rewrite proper_ne by assumption. destruct n as [s|d].
      + split; [reflexivity|]. split; [assumption|]. split; [auto|]. split; [discriminate|]. intros H. exfalso. apply H. left. exists [], s. split; [reflexivity|]. now exists ((p :: loc) ++ [name]).
      + destruct (sget d p) as [c|] eqn:Eg.
        * specialize (IH Hl' c (unique_child d p c Hu Eg)). destruct (get_by_path true (free_use name) loc c) as [c' r].
          destruct IH as (I1 & I2 & I3 & I4). split; [|split; [now apply unique_set|split; [discriminate|]]].
          -- intros l s. rewrite mounts_set. destruct l as [|q l]; [unfold mounts; cbn; intuition discriminate|].
             destruct (str_eqb_spec q p) as [->|N]; [|reflexivity]. rewrite I1. unfold mounts. cbn [at_loc]. now rewrite Eg.
          -- rewrite I4. cbn [app]. split; intros H C; apply H; clear H.
             ++ destruct C as [(mp & s & H & (rest & Hr))|[d' H]].
                ** destruct mp as [|q mp]; [discriminate H|]. injection Hr as <- Hr. left. exists mp, s. unfold mounts in H. cbn in H. rewrite Eg in H. split; [exact H|]. now exists rest.
                ** right. exists d'. cbn in H. now rewrite Eg in H.
             ++ destruct C as [(mp & s & H & (rest & Hr))|[d' H]]; [left; exists (p :: mp), s|right; exists d'].
                ** split; [unfold mounts; cbn; now rewrite Eg|]. exists rest. cbn. now rewrite Hr.
                ** cbn. now rewrite Eg.
        * assert (Hue : unique (Folder [])) by (intros [|x r] d' H; cbn in H; [injection H as <-; constructor|discriminate]).
          specialize (IH Hl' (Folder []) Hue). destruct (get_by_path true (free_use name) loc (Folder [])) as [c' r].
          destruct IH as (I1 & I2 & I3 & I4). split; [|split; [now apply unique_set|split; [discriminate|]]].
          -- intros l s. rewrite mounts_set. destruct l as [|q l]; [unfold mounts; cbn; intuition discriminate|].
             destruct (str_eqb_spec q p) as [->|N]; [|reflexivity]. rewrite I1. unfold mounts. cbn [at_loc]. rewrite Eg. split; [destruct l; discriminate|discriminate].
          -- rewrite I4. split; intros _.
             ++ intros [(mp & s & H & (rest & Hr))|[d' H]].
                ** destruct mp as [|q mp]; [discriminate H|]. injection Hr as <- Hr. unfold mounts in H. cbn in H. rewrite Eg in H. discriminate.
                ** cbn in H. rewrite Eg in H. discriminate.
             ++ intros [(mp & s & H & _)|[d' H]]; [destruct mp; discriminate H|]. destruct loc; discriminate H.
  Qed.

  (** ** unmount *)
  Definition rest_of (o : option node) : node := match o with Some n => n | None => Folder [] end.
  Lemma unmount_at_spec loc : Forall proper_name loc -> forall n, unique n ->
    match unmount_at loc n with
    | None => forall s, ~ mounts n loc s
    | Some (s, o) => mounts n loc s /\ (forall l x, mounts (rest_of o) l x <-> mounts n l x /\ l <> loc) /\ unique (rest_of o) /\
        (tidy n -> tidy (rest_of o)) /\ (forall n', o = Some n' -> exists d, n' = Folder d /\ d <> [])
    end.
  Proof.
    induction loc as [|p loc IH]; intros Hl n Hu; cbn [unmount_at].
    - destruct n as [s|d]; [|intros s H; discriminate H]. split; [reflexivity|]. split.
      + intros l x. cbn [rest_of]. unfold mounts. destruct l as [|q l]; cbn; intuition discriminate.
      + split; [intros [|q r] d' H; cbn in H; [injection H as <-; constructor|discriminate]|]. split; [intros _ [|q r] d' Hx H; [congruence|discriminate H]|discriminate].
    - inversion Hl as [|? ? Hp Hl']; subst. rewrite proper_ne by assumption. destruct n as [s|d]; [intros s' H; discriminate H|].
      destruct (sget d p) as [c|] eqn:Eg; [|intros s H; unfold mounts in H; cbn in H; rewrite Eg in H; discriminate].
      specialize (IH Hl' c (unique_child d p c Hu Eg)). destruct (unmount_at loc c) as [[s [c'|]]|].
      + destruct IH as (I1 & I2 & I3 & I4 & I5). cbn [rest_of] in *. destruct (I5 c' eq_refl) as (dc & -> & Hdc).
        split; [unfold mounts; cbn; now rewrite Eg|]. split; [|split; [now apply unique_set|split]].
        * intros l x. rewrite mounts_set. destruct l as [|q l]; [unfold mounts; cbn; intuition discriminate|]. destruct (str_eqb_spec q p) as [->|N].
          -- rewrite I2. unfold mounts. cbn [at_loc]. rewrite Eg. split; intros [H1 H2]; (split; [assumption|congruence]).
          -- split; [intros H; split; [assumption|congruence]|tauto].
        * intros Ht. destruct (tidy_child _ _ _ Ht Eg) as [T1 _]. apply tidy_set; [assumption|auto|]. intros d' E. now injection E as <-.
        * intros n' E. injection E as <-. eexists. split; [reflexivity|]. apply dset_nonempty.
      + destruct IH as (I1 & I2 & I3 & I4 & I5). cbn [rest_of] in I2.
        split; [unfold mounts; cbn; now rewrite Eg|].
        assert (Hnd : NoDup (dkeys d)) by (now apply (Hu [])).
        assert (Hm : forall l x, mounts (Folder (sdel d p)) l x <-> mounts (Folder d) l x /\ l <> p :: loc).
        { intros l x. destruct l as [|q l]; [unfold mounts; cbn; intuition discriminate|]. unfold mounts. cbn [at_loc].
          rewrite (dget_ddel str_eqb str_eqb_spec) by assumption. destruct (str_eqb_spec q p) as [->|N].
          - rewrite Eg. split; [discriminate|]. intros [H1 H2]. exfalso. assert (Hx : mounts (Folder []) l x) by (apply I2; split; [assumption|congruence]). destruct l; discriminate Hx.
          - split; [intros H; split; [assumption|congruence]|tauto]. }
        assert (Hq : unique (Folder (sdel d p))).
        { intros [|q l] d' H; [cbn in H; injection H as <-; now apply (NoDup_ddel str_eqb str_eqb_spec)|]. cbn [at_loc] in H.
          rewrite (dget_ddel str_eqb str_eqb_spec) in H by assumption. destruct (str_eqb_spec q p); [discriminate|]. now apply (Hu (q :: l)). }
        assert (Ht : tidy (Folder d) -> tidy (Folder (sdel d p))).
        { intros Ht [|q l] d' Hx H; [congruence|]. cbn [at_loc] in H. rewrite (dget_ddel str_eqb str_eqb_spec) in H by assumption.
          destruct (str_eqb_spec q p); [discriminate|]. now apply (Ht (q :: l)). }
        destruct (sdel d p) as [|e r] eqn:Ed; cbn [rest_of]; (split; [assumption|]); (split; [assumption|]); (split; [assumption|]); [discriminate|].
        intros n' E. injection E as <-. eexists. split; [reflexivity|discriminate].
      + intros s H. unfold mounts in H. cbn in H. rewrite Eg in H. now apply (IH s).
  Qed.

  (** ** Finding *)
  Lemma find_mounted mp s rest : forall before d, Forall proper_name mp -> mounts (Folder d) mp s ->
    find_loop before (mp ++ rest) d = Some (AtMount (join $"/" (before ++ mp)) (slash :: join $"/" rest) s).
  Proof.
    induction mp as [|p mp IH]; intros before d Hp H; [discriminate H|]. inversion Hp; subst. cbn [app find_loop]. rewrite proper_ne by assumption.
    unfold mounts in H. cbn in H. destruct (sget d p) as [[s'|d']|] eqn:Eg; [| |discriminate].
    - destruct mp; [|discriminate]. injection H as ->. reflexivity.
    - rewrite IH; [|assumption|exact H]. now rewrite <- app_assoc.
  Qed.
  Lemma find_folder loc : forall before d d', Forall proper_name loc -> at_loc loc (Folder d) = Some (Folder d') -> find_loop before loc d = Some (AtFolder d').
  Proof.
    induction loc as [|p loc IH]; intros before d d' Hp H; cbn [find_loop]; [cbn in H; congruence|]. inversion Hp; subst. rewrite proper_ne by assumption.
    cbn in H. destruct (sget d p) as [[s'|d2]|]; [destruct loc; discriminate| |discriminate]. now apply IH.
  Qed.
  Lemma find_nothing loc : forall before d, Forall proper_name loc -> at_loc loc (Folder d) = None -> (forall mp s rest, mounts (Folder d) mp s -> loc <> mp ++ rest) ->
    find_loop before loc d = None.
  Proof.
    induction loc as [|p loc IH]; intros before d Hp H Hno; cbn [find_loop]; [discriminate H|]. inversion Hp; subst. rewrite proper_ne by assumption.
    cbn in H. destruct (sget d p) as [[s'|d2]|] eqn:Eg; [| |reflexivity].
    - exfalso. apply (Hno [p] s' loc); [unfold mounts; cbn; now rewrite Eg|reflexivity].
    - apply IH; [assumption|assumption|]. intros mp s rest Hm E. apply (Hno (p :: mp) s rest); [unfold mounts; cbn; now rewrite Eg|]. cbn. now rewrite E.
  Qed.

  Lemma tidy_mount : forall n : node, tidy n -> (forall d, n = Folder d -> d <> []) -> exists loc s, mounts n loc s.
  Proof.
    fix IH 1. intros [s|d] Ht Hne; [exists [], s; reflexivity|]. destruct d as [|[p c] r]; [exfalso; now apply (Hne [])|].
    assert (Eg : sget ((p, c) :: r) p = Some c) by (cbn; now rewrite str_eqb_refl).
    destruct (tidy_child _ _ _ Ht Eg) as [T1 T2]. destruct (IH c T1 T2) as (loc & s & H). exists (p :: loc), s. unfold mounts. cbn [at_loc]. now rewrite Eg.
  Qed.
  Lemma at_loc_app a : forall b n, at_loc (a ++ b) n = match at_loc a n with Some c => at_loc b c | None => None end.
  Proof. induction a as [|p a IH]; intros b n; cbn; [reflexivity|]. destruct n as [s|d]; [reflexivity|]. destruct (sget d p); [apply IH|reflexivity]. Qed.
  Lemma mounts_prefix n a b s : mounts n (a ++ b) s -> b <> [] -> exists d, at_loc a n = Some (Folder d).
  Proof.
    intros H Hb. unfold mounts in H. rewrite at_loc_app in H. destruct (at_loc a n) as [[x|d]|]; [destruct b; [congruence|discriminate]|eauto|discriminate].
  Qed.
  Lemma tidy_at n loc c : tidy n -> at_loc loc n = Some c -> tidy c.
  Proof. intros Ht H l d Hl E. apply (Ht (loc ++ l)); [destruct loc; [assumption|discriminate]|]. now rewrite at_loc_app, H. Qed.
End Proofs.

Section Relation.
  Context {S : Type}.
  Definition related (n : node S) (t : table S) : Prop :=
    (exists d, n = Folder d) /\ unique n /\ (forall mp s, mounts n mp s <-> In (mp, s) t) /\ (forall mp s, In (mp, s) t -> Forall proper_name mp).

  Lemma related_empty : related empty [].
  Proof.
    split; [now exists []|]. split; [intros [|p r] d H; cbn in H; [injection H as <-; constructor|discriminate]|].
    split; [|intros mp s []]. intros mp s. split; [destruct mp; discriminate|intros []].
  Qed.
  Lemma tidy_empty : tidy (@empty S).
  Proof. intros [|p r] d Hn H; [congruence|discriminate H]. Qed.

  Lemma available_clash n t loc : related n t -> loc <> [] -> ~ clash n loc -> available t loc.
  Proof.
    intros ((d & ->) & _ & Hm & _) Hne Hc. split; [assumption|]. intros mp s Hin. apply Hm in Hin. split; intros [rest E].
    - apply Hc. left. exists mp, s. split; [assumption|]. now exists rest.
    - subst mp. destruct rest as [|x rest].
      + apply Hc. left. rewrite app_nil_r in Hin. exists loc, s. split; [assumption|]. exists []. now rewrite app_nil_r.
      + apply Hc. right. now apply (mounts_prefix _ loc (x :: rest) s).
  Qed.
  Lemma clash_available n t loc : related n t -> tidy n -> available t loc -> ~ clash n loc.
  Proof.
    intros (_ & _ & Hm & _) Ht [Hne Ha] [(mp & s & H & Hw)|[d H]].
    - apply Hm in H. now apply (proj1 (Ha _ _ H)).
    - destruct (tidy_mount (Folder d)) as (l & s & Hl).
      + eapply tidy_at; eassumption.
      + intros d' E. injection E as <-. now apply (Ht loc).
      + assert (Hx : mounts n (loc ++ l) s) by (unfold mounts; now rewrite at_loc_app, H). apply Hm in Hx. apply (proj2 (Ha _ _ Hx)). now exists l.
  Qed.

  Lemma parent_parts path x r : denotes path = x :: r -> exists loc name, denotes path = loc ++ [name] /\ Forall proper_name loc /\ proper_name name /\
    parent_and_name path = (folder_of loc, name) /\ forall A c (use : node S -> node S * A) n, get_by_path c use (parts_of (folder_of loc)) n = get_by_path c use loc n.
  Proof.
    intros E. destruct (@exists_last _ (denotes path)) as (loc & name & El); [congruence|]. pose proof (denotes_proper path) as Hp. rewrite El in Hp.
    apply Forall_app in Hp as [H1 H2]. inversion H2; subst. exists loc, name. split; [assumption|]. split; [assumption|]. split; [assumption|]. split.
    - rewrite parent_and_name_spec, El, removelast_last, last_last. destruct loc; reflexivity.
    - intros A c use n. rewrite parts_folder by assumption. destruct loc; reflexivity.
  Qed.

  Lemma mount_spec path s n t : related n t ->
    let '(n', r) := mount path s n in
    (r = Ok true -> available t (denotes path) /\ related n' ((denotes path, s) :: t) /\ (tidy n -> tidy n')) /\
    (r <> Ok true -> n' = n /\ (tidy n -> ~ available t (denotes path))).
  Proof.
    intros Hr. unfold mount. destruct (denotes path) as [|x r] eqn:Ed.
    { rewrite parent_and_name_spec, Ed. cbn [str_eqb]. rewrite str_eqb_refl. split; [discriminate|]. intros _. split; [reflexivity|]. intros _ [H _]. congruence. }
    destruct (parent_parts path x r Ed) as (loc & name & El & Hl & Hname & -> & Hget). rewrite proper_ne by assumption.
    rewrite Hget. change (fun n => match n with Mounted _ => (n, false) | Folder d => if dmem str_eqb d name then (n, false) else (Folder (sset d name (Mounted s)), true) end) with (mount_use name s).
    rewrite <- Ed, El. destruct Hr as ((d0 & ->) & Hu & Hm & Hp). pose proof (mount_at_spec name s loc Hname Hl (Folder d0) Hu) as M.
    assert (Hrel : related (Folder d0) t) by (split; [eauto|]; split; [assumption|]; split; assumption).
    destruct (get_by_path true (mount_use name s) loc (Folder d0)) as [n' [[|]| |]].
    - destruct M as (M1 & M2 & M3 & (d & -> & _) & M5). split; [|congruence]. intros _.
      split; [apply (available_clash _ _ _ Hrel); [destruct loc; discriminate|assumption]|]. split; [|assumption].
      split; [eauto|]. split; [assumption|]. split.
      + intros mp x0. rewrite M1, Hm. cbn [In]. split; [intros [H|[-> ->]]; auto|]. intros [H|H]; [injection H as <- <-; auto|auto].
      + intros mp x0 [H|H]; [injection H as <- <-; apply Forall_app; split; [assumption|now constructor]|now apply (Hp mp x0)].
    - destruct M as [-> M]. split; [discriminate|]. intros _. split; [reflexivity|]. intros Ht Ha. now apply (clash_available _ _ _ Hrel Ht Ha).
    - destruct M as [-> M]. split; [discriminate|]. intros _. split; [reflexivity|]. intros Ht Ha. now apply (clash_available _ _ _ Hrel Ht Ha).
    - destruct M as [-> M]. split; [discriminate|]. intros _. split; [reflexivity|]. intros Ht Ha. now apply (clash_available _ _ _ Hrel Ht Ha).
  Qed.

  Lemma is_mountable_spec path n t : related n t ->
    let '(n', b) := is_mountable path n in related n' t /\ (b = true -> available t (denotes path)) /\ (tidy n -> available t (denotes path) -> b = true).
  Proof.
    intros Hr. unfold is_mountable. destruct (denotes path) as [|x r] eqn:Ed.
    { rewrite parent_and_name_spec, Ed. cbn [parts_of get_by_path]. change (parts_of []) with [@nil ascii]. cbn [get_by_path]. rewrite str_eqb_refl. cbn [negb andb].
      split; [assumption|]. split; [discriminate|]. intros _ [H _]. congruence. }
    destruct (parent_parts path x r Ed) as (loc & name & El & Hl & Hname & -> & Hget).
    rewrite Hget. change (fun n : node S => (n, match n with Mounted _ => false | Folder d => negb (dmem str_eqb d name) end)) with (free_use (S := S) name).
    rewrite <- Ed, El. pose proof Hr as Hrel. destruct Hr as ((d0 & ->) & Hu & Hm & Hp). pose proof (free_at_spec name loc Hname Hl (Folder d0) Hu) as F.
    destruct (get_by_path true (free_use name) loc (Folder d0)) as [n' r']. destruct F as (F1 & F2 & F3 & F4).
    split.
    { split; [destruct n' as [s|d]; [discriminate (F3 s eq_refl)|eauto]|]. split; [assumption|]. split; [|assumption]. intros mp s. now rewrite F1. }
    assert (E : match r' with Reached _ free => negb (str_eqb name []) && free | Missing _ => false | Blocked _ => false end = match r' with Reached _ b => b | _ => false end).
    { rewrite proper_ne by assumption. destruct r'; reflexivity. }
    rewrite E. split.
    - intros H. apply (available_clash _ _ _ Hrel); [destruct loc; discriminate|]. now apply F4.
    - intros Ht Ha. apply F4. now apply (clash_available _ _ _ Hrel Ht).
  Qed.

  Lemma unmount_spec path n t : related n t ->
    let '(n', r) := unmount path n in
    match r with
    | Some s => In (denotes path, s) t /\ exists t', (forall mp x, In (mp, x) t' <-> In (mp, x) t /\ mp <> denotes path) /\ related n' t' /\ (tidy n -> tidy n')
    | None => n' = n /\ forall s, ~ In (denotes path, s) t
    end.
  Proof.
    intros ((d0 & ->) & Hu & Hm & Hp). unfold unmount. rewrite strip_norm, parts_join by apply denotes_proper. pose proof (denotes_proper path) as Hpp.
    set (loc := denotes path) in *. clearbody loc. pose proof (unmount_at_spec loc Hpp (Folder d0) Hu) as M.
    replace (unmount_at match loc with [] => [[]] | _ :: _ => loc end (Folder d0)) with (unmount_at loc (Folder d0)) by (destruct loc; reflexivity).
    assert (Hdec : forall a b : location, {a = b} + {a <> b}) by (intros a b; apply list_eq_dec; intros x y; apply list_eq_dec, ascii_dec).
    assert (Hfin : forall (s : S) (o : option (node S)), mounts (Folder d0) loc s -> (forall l x, mounts (rest_of o) l x <-> mounts (Folder d0) l x /\ l <> loc) -> unique (rest_of o) ->
      (exists d, rest_of o = Folder d) -> (tidy (Folder d0) -> tidy (rest_of o)) ->
      In (loc, s) t /\ exists t', (forall mp x, In (mp, x) t' <-> In (mp, x) t /\ mp <> loc) /\ related (rest_of o) t' /\ (tidy (Folder d0) -> tidy (rest_of o))).
    { intros s o M1 M2 M3 M4 M5. split; [now apply Hm|]. exists (filter (fun e => if Hdec (fst e) loc then false else true) t).
      assert (Ht' : forall mp x, In (mp, x) (filter (fun e => if Hdec (fst e) loc then false else true) t) <-> In (mp, x) t /\ mp <> loc).
      { intros mp x. rewrite filter_In. cbn [fst]. destruct (Hdec mp loc); intuition congruence. }
      split; [exact Ht'|]. split; [|assumption]. split; [assumption|]. split; [assumption|]. split.
      - intros mp x. now rewrite Ht', <- Hm.
      - intros mp x H. apply Ht' in H as [H _]. now apply (Hp mp x). }
    destruct (unmount_at loc (Folder d0)) as [[s [n'|]]|].
    - destruct M as (M1 & M2 & M3 & M4 & M5). destruct (M5 n' eq_refl) as (d & -> & Hd). apply (Hfin s (Some (Folder d))); auto. eexists. reflexivity.
    - destruct M as (M1 & M2 & M3 & M4 & M5). apply (Hfin s None); auto. now exists [].
    - split; [reflexivity|]. intros s H. apply Hm in H. now apply (M s).
  Qed.

  Lemma perform_all_spec ops : forall n t, related n t -> tidy n ->
    let '(n', l) := perform_all ops n in exists t', calls t l t' /\ related n' t' /\ tidy n'.
  Proof.
    induction ops as [|o ops IH]; intros n t Hr Ht; cbn [perform_all]; [exists t; split; [constructor|auto]|].
    assert (Hstep : let '(n1, a) := perform o n in exists t1, call t o a t1 /\ related n1 t1 /\ tidy n1).
    { destruct o as [path s|path]; cbn [perform].
      - pose proof (mount_spec path s n t Hr) as M. destruct (mount path s n) as [n1 r]. destruct M as [M1 M2].
        destruct r as [[|]|e].
        + destruct (M1 eq_refl) as (A1 & A2 & A3). eexists. split; [now apply CMount|]. auto.
        + destruct (M2 ltac:(discriminate)) as (-> & A2). exists t. split; [apply CMountFails; auto|]. auto.
        + destruct (M2 ltac:(discriminate)) as (-> & A2). exists t. split; [apply CMountFails; auto|]. auto.
      - pose proof (unmount_spec path n t Hr) as M. destruct (unmount path n) as [n1 [s|]].
        + destruct M as (A1 & t' & A2 & A3 & A4). exists t'. split; [now apply CUnmount|]. auto.
        + destruct M as (-> & A2). exists t. split; [now apply CUnmountFails|]. auto. }
    destruct (perform o n) as [n1 a]. destruct Hstep as (t1 & C & R1 & T1). specialize (IH n1 t1 R1 T1). destruct (perform_all ops n1) as [n2 l].
    destruct IH as (t2 & Cs & R2 & T2). exists t2. split; [econstructor; eassumption|]. auto.
  Qed.
End Relation.

Section Shown.
  Context {U : Type}.
  Implicit Types (n : node (source U)) (t : table (source U)).

  Lemma related_shows_mounts n t : related n t -> shows_mounts n t.
  Proof.
    intros ((d & ->) & _ & Hm & Hp) mp s rest Hin Hrest. pose proof (Hp _ _ Hin) as Hmp. apply Hm in Hin.
    assert (Hne : mp ++ rest <> []) by (destruct mp; [discriminate Hin|discriminate]).
    assert (F : find_mount_source (written (mp ++ rest)) (Folder d) = Some (AtMount (join $"/" mp) (written rest) s)).
    { unfold find_mount_source. rewrite parts_written by (apply Forall_app; auto). destruct (mp ++ rest) as [|x r] eqn:E; [congruence|]. rewrite <- E.
      rewrite (find_mounted mp s rest [] d Hmp Hin). reflexivity. }
    unfold sv_lookup, sv_versions, sv_list. rewrite F. auto.
  Qed.
  Lemma next_name_child n t loc name : related n t -> tidy n -> Forall proper_name loc -> forall d, at_loc loc n = Some (Folder d) ->
    (In name (dkeys d) <-> next_names t loc name).
  Proof.
    intros (_ & _ & Hm & _) Ht Hl d Hd. rewrite <- (dget_In_keys str_eqb str_eqb_spec). split.
    - intros [c Hc]. assert (Hat : at_loc (loc ++ [name]) n = Some c) by (rewrite at_loc_app, Hd; cbn; now rewrite Hc).
      destruct (tidy_mount c) as (l & s & Hl2).
      + eapply tidy_at; eassumption.
      + intros d' ->. apply (Ht (loc ++ [name])); [destruct loc; discriminate|assumption].
      + exists (loc ++ name :: l), s, l. split; [|reflexivity]. apply Hm. unfold mounts. change (loc ++ name :: l) with (loc ++ [name] ++ l). now rewrite app_assoc, at_loc_app, Hat.
    - intros (mp & s & rest & Hin & ->). apply Hm in Hin. unfold mounts in Hin. rewrite at_loc_app, Hd in Hin. cbn in Hin. destruct (sget d name); [eauto|discriminate].
  Qed.
  Lemma related_shows_folders n t : related n t -> tidy n -> shows_folders n t.
  Proof.
    intros Hr Ht loc Hl Hx. pose proof Hr as ((d0 & ->) & Hu & Hm & Hp).
    assert (Hd : exists d, at_loc loc (Folder d0) = Some (Folder d)).
    { destruct Hx as [->|(name & mp & s & rest & Hin & ->)]; [now exists d0|]. apply Hm in Hin. now apply (mounts_prefix _ loc (name :: rest) s). }
    destruct Hd as [d Hd].
    assert (F : find_mount_source (written loc) (Folder d0) = Some (AtFolder d)).
    { unfold find_mount_source. rewrite parts_written by assumption. pose proof (find_folder loc [] d0 d Hl Hd) as F. destruct loc; exact F. }
    unfold sv_lookup, sv_versions, sv_list. rewrite F. split; [reflexivity|]. split; [reflexivity|]. exists (dkeys d). split; [reflexivity|]. split; [now apply (Hu loc)|].
    intros name. now apply (next_name_child (Folder d0) t loc name Hr Ht).
  Qed.
  Lemma related_shows_nothing n t : related n t -> tidy n -> shows_nothing_else n t.
  Proof.
    intros Hr Ht loc Hl Hne Hno. pose proof Hr as ((d0 & ->) & Hu & Hm & Hp).
    assert (F : find_mount_source (written loc) (Folder d0) = None).
    { unfold find_mount_source. rewrite parts_written by assumption. destruct loc as [|x r]; [congruence|]. apply find_nothing; [assumption| |].
      - destruct (at_loc (x :: r) (Folder d0)) as [c|] eqn:E; [|reflexivity]. exfalso. destruct (tidy_mount c) as (l & s & Hs).
        + eapply tidy_at; eassumption.
        + intros d' ->. apply (Ht (x :: r)); [discriminate|assumption].
        + assert (Hin : mounts (Folder d0) ((x :: r) ++ l) s) by (unfold mounts; now rewrite at_loc_app, E). apply Hm in Hin. apply (proj2 (Hno _ _ Hin)). now exists l.
      - intros mp s rest Hin E. apply Hm in Hin. apply (proj1 (Hno _ _ Hin)). now exists rest. }
    unfold sv_lookup, sv_versions, sv_list. rewrite F. auto.
  Qed.
End Shown.
