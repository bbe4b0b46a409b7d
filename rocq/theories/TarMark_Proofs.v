(** Proofs about the marks of nested archives. *)
From Coq Require Import Ascii String.
From Verif Require Import PyBase PyDict PyStr Path_Model Path_Spec Path_Proofs FileInfo Strip_Model Index_Model Index_Spec Index_Proofs Build_Proofs
  Tar_Model Tar_Spec Tar_Proofs.
Local Open Scope Z_scope.

(** All rows of an archive lie behind its start. *)
Lemma inserted_after transform strip remount ig archive levels : forall depth bs prefix start r,
  In r (inserted_rows (index_part transform strip remount ig archive levels depth bs prefix start)) -> start <= r_offsetheader r.
Proof.
  induction levels as [|levels IH]; intros depth bs prefix start r Hr; [destruct Hr|].
  cbn [index_part] in Hr. destruct (members ig bs) as [found complete].
  unfold inserted_rows in Hr. cbn [flat_map] in Hr. apply in_app_iff in Hr as [Hr|Hr].
  - apply in_flat_map in Hr as ([pos m] & _ & Hr). pose proof (file_row_fields transform prefix start depth pos m) as (_ & _ & F3 & _).
    unfold file_rows in Hr. destruct (char_eqb (m_type m) "D"); [destruct Hr as [<-|[<-|[]]]|destruct Hr as [<-|[]]]; cbn [r_offsetheader]; lia.
  - apply in_flat_map in Hr as (i & Hi & Hr). apply in_flat_map in Hi as ([pos m] & _ & Hi).
    pose proof (file_row_fields transform prefix start depth pos m) as (_ & _ & F3 & F4 & _).
    destruct (mount_point strip remount (file_row transform prefix start depth pos m)) as [path [folder name]].
    apply in_app_iff in Hi as [Hi|[<-|[<-|[]]]].
    + assert (r_offset (file_row transform prefix start depth pos m) <= r_offsetheader r); [|lia].
      eapply IH. apply in_flat_map. exists i. split; [exact Hi|exact Hr].
    + destruct Hr as [<-|[]]. unfold mounted_row. cbn [r_offsetheader]. destruct (_ || _); lia.
    + destruct Hr as [<-|[]]. unfold with_istar. cbn [r_offsetheader]. lia.
Qed.

(** Members come one behind the other. *)
Lemma tarball_order bs l : tarball bs l -> forall l1 pos m body l2, l = l1 ++ (pos, m, body) :: l2 ->
  forall pos' m' body', In (pos', m', body') l2 -> (pos + 1 + m_extra m + m_blocks m <= pos')%nat.
Proof.
  induction 1 as [bs E|m0 ext body0 rest l Ee Eb Ht IH]; intros l1 pos m body l2 El pos' m' body' I; [destruct l1; discriminate|].
  destruct l1 as [|x l1].
  - cbn [app] in El. injection El as <- <- <- <-. apply in_map_iff in I as ([[p q] b] & E & I). injection E as <- <- <-. lia.
  - cbn [app] in El. injection El as _ El. apply map_eq_app in El as (k1 & k2 & -> & _ & E2).
    destruct k2 as [|[[p q] b] k2]; [discriminate|]. cbn [map] in E2. injection E2 as <- <- <- <-.
    apply in_map_iff in I as ([[p' q'] b'] & E & I). injection E as <- <- <-.
    pose proof (IH k1 p q b k2 eq_refl p' q' b' I). lia.
Qed.

Lemma filter_map_comm {X Y} (f : X -> Y) (p : Y -> bool) l : filter p (map f l) = map f (filter (fun x => p (f x)) l).
Proof. induction l as [|x l IH]; [reflexivity|]. cbn [map filter]. destruct (p (f x)); cbn [map]; now rewrite IH. Qed.

Section Marks.
  Variable transform : str -> str.
  Variable strip : bool.
  Variable remount : option (str -> str).
  Variable archive : list block.
  Notation index_part := (index_part transform strip remount false archive).

  (** What is inserted for one nested archive. *)
  Definition nested_part (l : nat) (depth : Z) (prefix : str) (stream : Z) (pm : nat * member) : list insertion :=
    let '(pos, m) := pm in
    let r := file_row transform prefix stream depth pos m in
    let '(path, (folder, name)) := mount_point strip remount r in
    index_part l (depth + 1) (region archive (r_offset r) (r_size r)) path (r_offset r) ++ [One (mounted_row r folder name); One (with_istar r)].

  Lemma nested_after l depth prefix stream pos m r : In r (inserted_rows (nested_part l depth prefix stream (pos, m))) -> stream + 512 * Z.of_nat pos <= r_offsetheader r.
  Proof.
    unfold nested_part. pose proof (file_row_fields transform prefix stream depth pos m) as (_ & _ & F3 & F4 & _).
    destruct (mount_point strip remount (file_row transform prefix stream depth pos m)) as [path [folder name]].
    unfold inserted_rows. rewrite flat_map_app, in_app_iff. intros [H|[<-|[<-|[]]]].
    - apply inserted_after in H. lia.
    - unfold mounted_row. cbn [r_offsetheader]. destruct (_ || _); lia.
    - unfold with_istar. cbn [r_offsetheader]. lia.
  Qed.

  (** The insertions of an archive, cut at one of its nested archives. *)
  Lemma cut_at bs l pos m body levels depth prefix start : tarball bs l -> In (pos, m, body) l -> named_tar m ->
    exists pre post, inserted_rows (index_part (S (S levels)) depth bs prefix start) =
        pre ++ inserted_rows (nested_part (S levels) depth prefix start (pos, m)) ++ post /\
      forall r, In r post -> start + 512 * Z.of_nat (pos + 1 + m_extra m + m_blocks m) <= r_offsetheader r.
  Proof.
    intros Ht I Hn. apply in_split in I as (l1 & l2 & El). pose proof (tarball_order bs l Ht l1 pos m body l2 El) as Ord.
    cbn [Tar_Model.index_part]. rewrite (members_tarball bs l Ht). cbn [andb Nat.eqb negb].
    change (flat_map _ (filter _ (heads 0 l))) with (flat_map (nested_part (S levels) depth prefix start) (filter (fun '(_, m) => might_be_tar m) (heads 0 l))).
    rewrite El. unfold heads. rewrite map_app, filter_app. cbn [map filter]. rewrite (proj2 (named_tar_spec m) Hn). cbv iota. rewrite !flat_map_app. cbn [flat_map Nat.add].
    unfold inserted_rows at 1. cbn [flat_map]. rewrite !flat_map_app.
    eexists (_ ++ _), _. split; [apply app_assoc|].
    intros r Hr. apply in_flat_map in Hr as (i & Hi & Hr). apply in_flat_map in Hi as ([pos' m'] & Hi & Hj). apply filter_In in Hi as [Hi _].
    apply in_map_iff in Hi as ([[p q] b] & E & Hi). cbn [Nat.add] in E. injection E as <- <-. specialize (Ord _ _ _ Hi).
    assert (start + 512 * Z.of_nat p <= r_offsetheader r); [|lia].
    apply (nested_after (S levels) depth prefix start p q). apply in_flat_map. eauto.
  Qed.

  Lemma held_within levels prefix start bs prefix' header m body :
    holds (mounted_at transform strip remount) levels prefix start bs prefix' header m body -> start <= header /\ header + 512 <= start + 512 * Z.of_nat (length bs).
  Proof.
    induction 1 as [levels prefix start bs l pos m body Ht I|levels prefix start bs l pos m body at_ prefix' header m' body' Ht I Hn Hsz Hm Hh IH];
      destruct (tarball_body bs l Ht pos m body I) as ((p & q & E & L) & N & Lb).
    - assert (pos < length bs)%nat by (apply nth_error_Some; congruence). lia.
    - apply (f_equal (@length _)) in E. rewrite !app_length in E. lia.
  Qed.

  (** The last thing inserted for the header of a nested archive is its row with the mark; before it comes the folder. *)
  Lemma marked_inserted levels prefix start bs prefix' header m body :
    holds (mounted_at transform strip remount) levels prefix start bs prefix' header m body -> named_tar m ->
    forall depth, lies_at archive bs start ->
    exists d k pos pre post, start <= k /\ header = k + 512 * Z.of_nat pos /\ let r := file_row transform prefix' k d pos m in
      let '(_, (folder, name)) := mount_point strip remount r in
      inserted_rows (index_part (S levels) depth bs prefix start) = pre ++ mounted_row r folder name :: with_istar r :: post /\
      describes transform archive prefix' header m body r /\
      forall x, In x post -> r_offsetheader x <> header /\ r_offsetheader x <> header + 1.
  Proof.
    induction 1 as [levels prefix start bs l pos m body Ht I|levels prefix start bs l pos m body at_ prefix' header m' body' Ht I Hn Hsz Hm Hh IH];
      intros Hd depth Hl.
    - destruct (cut_at bs l pos m body levels depth prefix start Ht I Hd) as (pre & post & E & A).
      exists depth, start, pos. pose proof (file_row_describes transform archive bs l prefix start depth pos m body Ht Hl I) as D.
      unfold nested_part in E. destruct (mount_point strip remount (file_row transform prefix start depth pos m)) as [path [folder name]] eqn:Em.
      unfold inserted_rows in E at 2. rewrite flat_map_app in E. cbn [flat_map app] in E. rewrite <- !app_assoc in E.
      set (front := flat_map _ _) in E. exists (pre ++ front), post. split; [lia|]. split; [reflexivity|]. cbv zeta. rewrite Em. split; [rewrite E, <- app_assoc; cbn [app]; reflexivity|].
      split; [exact D|]. intros x Hx. specialize (A x Hx). lia.
    - destruct (cut_at bs l pos m body (S levels) depth prefix start Ht I Hn) as (pre & post & E & A).
      pose proof (lies_body archive bs start l pos m body Hl Ht I) as Hb.
      destruct (tarball_body bs l Ht pos m body I) as (_ & _ & Lb).
      pose proof (held_within _ _ _ _ _ _ _ _ Hh) as W.
      destruct (IH Hd (depth + 1) Hb) as (d & k & pos' & pre' & post' & Lk & Eh & X). exists d, k, pos'.
      unfold nested_part in E. pose proof (file_row_fields transform prefix start depth pos m) as (F1 & F2 & F3 & F4 & F5 & _).
      pose proof (mount_point_spec transform strip remount prefix start depth pos m at_ (named_not_dir m Hn) Hm) as Em.
      destruct (mount_point strip remount (file_row transform prefix start depth pos m)) as [path [folder name]]. cbn [fst] in Em. subst path.
      rewrite F4, F5 in E.
      replace (region archive (start + 512 * Z.of_nat (pos + 1 + m_extra m)) (m_size m)) with body in E.
      2:{ unfold region. rewrite Hsz. replace (512 * Z.of_nat (length body) / 512) with (Z.of_nat (length body)) by (rewrite Z.mul_comm, Z.div_mul; lia).
          rewrite Nat2Z.id. symmetry. exact (lies_blocks archive body _ Hb). }
      unfold inserted_rows in E at 2. rewrite flat_map_app in E.
      change (flat_map _ (index_part (S (S levels)) (depth + 1) body at_ (start + 512 * Z.of_nat (pos + 1 + m_extra m))))
        with (inserted_rows (index_part (S (S levels)) (depth + 1) body at_ (start + 512 * Z.of_nat (pos + 1 + m_extra m)))) in E.
      cbv zeta in X |- *. destruct (mount_point strip remount (file_row transform prefix' k d pos' m')) as [path' [folder' name']].
      destruct X as (X & D & P). rewrite X in E. cbn [flat_map app] in E. rewrite <- !app_assoc in E. cbn [app] in E.
      exists (pre ++ pre'), (post' ++ [mounted_row (file_row transform prefix start depth pos m) folder name; with_istar (file_row transform prefix start depth pos m)] ++ post).
      split; [lia|]. split; [exact Eh|]. split; [rewrite E, <- !app_assoc; cbn [app]; reflexivity|]. split; [exact D|].
      intros x Hx. rewrite !in_app_iff in Hx. destruct Hx as [Hx|[[<-|[<-|[]]]|Hx]]; [now apply P| | |specialize (A x Hx); lia].
      + unfold mounted_row. cbn [r_offsetheader]. destruct (_ || _); lia.
      + unfold with_istar. cbn [r_offsetheader]. lia.
  Qed.
End Marks.

Lemma header_no_key a b : r_offsetheader a <> r_offsetheader b -> ukey a <> ukey b.
Proof. intros H E. apply H. unfold ukey in E. now injection E. Qed.

Lemma lstrip_keeps (s : str) : lstrip slash s = s -> forall c t, s = c :: t -> c <> slash.
Proof.
  intros E c t -> ->. rewrite lstrip_sep in E. pose proof (lstrip_length t). apply (f_equal (@length _)) in E. cbn [length] in E. lia.
Qed.

(** The folder and the name of the mount point make up its path. *)
Lemma mount_point_full transform strip remount prefix stream depth pos m :
  let '(path, (folder, name)) := mount_point strip remount (file_row transform prefix stream depth pos m) in folder ++ slash :: name = path.
Proof.
  pose proof (file_row_fields transform prefix stream depth pos m) as (F1 & F2 & _). set (r := file_row _ _ _ _ _ _) in *.
  assert (P : Forall proper_name (denotes (full_name transform prefix m))) by apply denotes_proper. set (loc := denotes _) in *.
  unfold mount_point. cbv zeta. set (name := if strip && ends_with $".tar" (map lower (r_name r)) then firstn (length (r_name r) - 4) (r_name r) else r_name r).
  assert (Nn : ~ In slash name).
  { unfold name. destruct (_ && _); [|exact F2]. intros J. apply F2. rewrite <- (firstn_skipn (length (r_name r) - 4) (r_name r)). apply in_app_iff. now left. }
  destruct remount as [f|].
  - set (path := slash :: lstrip slash (f _)). assert (In slash path) as J by now left. unfold split_last. destruct (rsplit1 slash path) as [[a b]|] eqn:E.
    + now apply rsplit1_Some in E.
    + apply rsplit1_None in E. contradiction.
  - unfold full_path, written in F1. change ($"/" ++ name) with (slash :: name). destruct (r_path r) as [|c p].
    + cbn [app]. rewrite lstrip_sep. f_equal. symmetry. destruct name as [|x n]; [reflexivity|]. apply lstrip_id. cbn [In] in Nn. tauto.
    + cbn [app] in F1 |- *. injection F1 as -> F1. rewrite lstrip_sep. f_equal.
      assert (L : lstrip slash (p ++ [slash]) = p ++ [slash]) by (apply (join_no_slash_head loc _ (r_name r) P); rewrite <- app_assoc; cbn [app]; symmetry; exact F1).
      destruct p as [|c p]; [exfalso; exact (lstrip_keeps _ L slash [] eq_refl eq_refl)|].
      cbn [app]. symmetry. apply lstrip_id. exact (lstrip_keeps _ L c (p ++ [slash]) eq_refl).
Qed.

Lemma nested_rows transform strip remount archive levels prefix header m body :
  holds (mounted_at transform strip remount) levels [] 0 archive prefix header m body -> named_tar m ->
  let table := build (index_part transform strip remount false archive (S levels) 0 archive [] 0) in
  exists r folder, In r table /\ In folder table /\
    describes transform archive prefix header m body r /\ r_istar r = true /\
    (forall at_, mounted_at transform strip remount prefix m at_ -> full_path folder = at_) /\ r_istar folder = true /\ r_mode folder = folder_mode (full_mode m).
Proof.
  intros H Hn table. assert (Hl : lies_at archive archive 0) by (exists [], []; rewrite app_nil_r; split; reflexivity).
  destruct (marked_inserted transform strip remount archive _ _ _ _ _ _ _ _ H Hn 0 Hl) as (d & k & pos & pre & post & Lk & Eh & X). cbv zeta in X.
  pose proof (fun at_ => mount_point_spec transform strip remount prefix k d pos m at_ (named_not_dir m Hn)) as Mp.
  pose proof (mount_point_full transform strip remount prefix k d pos m) as Mf.
  destruct (mount_point strip remount (file_row transform prefix k d pos m)) as [path [folder name]]. cbn [fst] in Mp. destruct X as (E & D & P).
  pose proof (file_row_fields transform prefix k d pos m) as (F1 & F2 & F3 & F4 & F5 & F6 & F7 & _).
  set (r := file_row transform prefix k d pos m) in *.
  exists (with_istar r), (mounted_row r folder name). split; [|split; [|split; [|split; [reflexivity|split; [|split; [reflexivity|]]]]]].
  - apply build_keeps, replace_all_In. exists (pre ++ [mounted_row r folder name]), post. split; [rewrite E, <- app_assoc; reflexivity|].
    intros x Hx. apply header_no_key. destruct (P x Hx) as [P1 _]. unfold with_istar. cbn [r_offsetheader]. lia.
  - apply build_keeps, replace_all_In. exists pre, (with_istar r :: post). split; [exact E|]. intros x [<-|Hx].
    + unfold ukey, with_istar, mounted_row. cbn [r_path r_name r_offsetheader].
      destruct (str_eqb_spec folder (r_path r)), (str_eqb_spec name (r_name r)); cbn [negb orb]; intros Q; injection Q; intros; congruence || lia.
    + apply header_no_key. destruct (P x Hx) as [P1 P2]. unfold mounted_row. cbn [r_offsetheader]. destruct (_ || _); lia.
  - exact D.
  - intros at_ M. unfold full_path, mounted_row. cbn [r_path r_name]. rewrite Mf. now apply Mp.
  - unfold mounted_row. cbn [r_mode]. now rewrite F7.
Qed.

(** Without recursion nothing is marked. *)
Lemma flat_unmarked transform strip remount ig archive r : In r (build (index_part transform strip remount ig archive 1 0 archive [] 0)) -> r_istar r = false.
Proof.
  intros H. assert (Hb : forall x, In x (inserted_rows (index_part transform strip remount ig archive 1 0 archive [] 0)) -> backend_row x /\ r_istar x = false).
  { cbn [index_part]. destruct (members ig archive) as [found complete]. cbn [Nat.eqb negb]. rewrite andb_false_r. cbn [flat_map]. unfold inserted_rows. cbn [flat_map]. rewrite app_nil_r.
    intros x Hx. apply in_flat_map in Hx as ([pos m] & _ & Hx). pose proof (file_row_backend transform [] 0 0 pos m) as B.
    assert (r_istar (file_row transform [] 0 0 pos m) = false) as N by (unfold file_row; now destruct (split_last _)).
    unfold file_rows in Hx. destruct (char_eqb (m_type m) "D"); [destruct Hx as [<-|[<-|[]]]|destruct Hx as [<-|[]]]; split; trivial. }
  destruct (built_rows _ (fun x Hx => proj1 (Hb x Hx))) as (_ & B & _). destruct (B r H) as [L|(below & p & n & _ & G & _)].
  - destruct L as (p & q & E & _). apply Hb. rewrite E. apply in_app_iff. right. now left.
  - now destruct G as (_ & _ & _ & _ & _ & _ & _ & G & _).
Qed.
