From Coq Require Import Ascii String.
From Verif Require Import PyBase PyStr Path_Model Path_Spec.

Lemma enter_proper loc c : Forall proper_name loc -> ~ In slash c -> Forall proper_name (enter loc c).
Proof.
  intros Hl Hc. unfold enter. destruct (str_eqb_spec c []); [assumption|].
  destruct (str_eqb_spec c $"."); [assumption|]. destruct (str_eqb_spec c $"..").
  - destruct (list_eq_dec (list_eq_dec ascii_dec) loc []) as [->|Hne]; [assumption|].
    rewrite (app_removelast_last [] Hne) in Hl. now apply Forall_app in Hl.
  - apply Forall_app; split; [assumption|]. repeat constructor; assumption.
Qed.

Lemma walk_proper comps : forall loc, Forall proper_name loc -> (forall c, In c comps -> ~ In slash c) ->
  Forall proper_name (fold_left enter comps loc).
Proof.
  induction comps as [|c r IH]; intros loc Hl Hc; [assumption|]. cbn [fold_left].
  apply IH; [apply enter_proper; [assumption|apply Hc; now left]|]. intros; apply Hc; now right.
Qed.

Lemma denotes_proper p : Forall proper_name (denotes p).
Proof. apply walk_proper; [constructor|]. intros c. apply split_In_no_sep. Qed.

Lemma enter_name loc n : proper_name n -> enter loc n = loc ++ [n].
Proof.
  intros (H1 & H2 & H3 & _). unfold enter. destruct (str_eqb_spec n []); [congruence|].
  destruct (str_eqb_spec n $"."); [congruence|]. destruct (str_eqb_spec n $".."); [congruence|reflexivity].
Qed.

Lemma walk_names names loc : Forall proper_name names -> fold_left enter names loc = loc ++ names.
Proof.
  revert loc. induction names as [|n r IH]; intros loc H; cbn [fold_left]; [now rewrite app_nil_r|].
  inversion H; subst. rewrite enter_name by assumption. rewrite IH by assumption. now rewrite <- app_assoc.
Qed.

Lemma denotes_cons_slash p : denotes (slash :: p) = denotes p.
Proof. unfold denotes. rewrite split_cons_sep. reflexivity. Qed.

Lemma denotes_app_slash p q : denotes (p ++ slash :: q) = fold_left enter (split slash q) (denotes p).
Proof. unfold denotes. rewrite split_app_sep, fold_left_app. reflexivity. Qed.

Lemma denotes_child p n : proper_name n -> denotes (p ++ slash :: n) = denotes p ++ [n].
Proof.
  intros H. rewrite denotes_app_slash. rewrite split_no_sep by apply H. cbn [fold_left]. now apply enter_name.
Qed.

Lemma proper_no_slash loc : Forall proper_name loc -> Forall (fun p => ~ In slash p) loc.
Proof. intros H. eapply Forall_impl; [|exact H]. unfold proper_name; tauto. Qed.

Lemma split_written loc : Forall proper_name loc -> loc <> [] -> split slash (written loc) = [] :: loc.
Proof.
  intros H Hne. unfold written. rewrite split_cons_sep. f_equal.
  apply (split_join slash); [assumption|now apply proper_no_slash].
Qed.

Lemma denotes_written loc : Forall proper_name loc -> denotes (written loc) = loc.
Proof.
  intros H. destruct loc as [|n r]; [reflexivity|]. unfold denotes. rewrite split_written by (assumption || discriminate).
  change (fold_left enter ([] :: n :: r) []) with (fold_left enter (n :: r) []). now rewrite walk_names.
Qed.

Lemma written_inj a b : Forall proper_name a -> Forall proper_name b -> written a = written b -> a = b.
Proof. intros Ha Hb E. rewrite <- (denotes_written a Ha), E. now apply denotes_written. Qed.

(** The component loop of the model is [enter] when there are initial slashes. *)
Lemma norm_comp_enter s acc c : s <> 0 -> Forall proper_name acc -> norm_comp s acc c = enter acc c.
Proof.
  intros Hs Ha. unfold norm_comp, enter. destruct (str_eqb_spec c []) as [->|H1]; [reflexivity|].
  destruct (str_eqb_spec c $".") as [->|H2]; [reflexivity|]. cbn [orb].
  destruct (str_eqb_spec c $"..") as [->|H3]; [|reflexivity]. cbn [negb orb].
  destruct s; [congruence|]. cbn [Nat.eqb andb orb].
  destruct (rev acc) as [|x r] eqn:E; [reflexivity|].
  assert (Hx : In x acc) by (apply in_rev; rewrite E; now left).
  destruct (str_eqb_spec x $"..") as [->|]; [|reflexivity].
  rewrite Forall_forall in Ha. specialize (Ha _ Hx). destruct Ha as (_ & _ & Ha & _). congruence.
Qed.

Lemma norm_walk s comps : s <> 0 -> (forall c, In c comps -> ~ In slash c) -> forall acc, Forall proper_name acc ->
  fold_left (norm_comp s) comps acc = fold_left enter comps acc.
Proof.
  intros Hs. induction comps as [|c r IH]; intros Hc acc Ha; [reflexivity|]. cbn [fold_left].
  rewrite norm_comp_enter by assumption. apply IH; [intros; apply Hc; now right|].
  apply enter_proper; [assumption|apply Hc; now left].
Qed.

Lemma posix_normpath_abs p : exists n, posix_normpath (slash :: p) = repeat slash (S n) ++ join $"/" (denotes p).
Proof.
  unfold posix_normpath.
  set (s := if starts_with _ _ then _ else _).
  assert (Hs : s <> 0) by (unfold s; cbn [list_ascii_of_string starts_with]; unfold slash; cbn; destruct (_ && _); discriminate).
  rewrite norm_walk; [|assumption|apply split_In_no_sep|constructor].
  change (fold_left enter (split slash (slash :: p)) []) with (denotes (slash :: p)). rewrite denotes_cons_slash.
  destruct s as [|n]; [congruence|]. exists n. reflexivity.
Qed.

Lemma join_head loc : Forall proper_name loc -> lstrip slash (join $"/" loc) = join $"/" loc.
Proof.
  intros H. destruct loc as [|x r]; [reflexivity|]. inversion H as [|? ? (Hne & _ & _ & Hs) _]; subst.
  destruct x as [|a x]; [congruence|].
  assert (E : exists t, join $"/" ((a :: x) :: r) = a :: t) by (destruct r; [now exists x|eexists; reflexivity]).
  destruct E as [t ->]. apply lstrip_id. intros ->. apply Hs. now left.
Qed.

Lemma lstrip_repeat n s : lstrip slash (repeat slash n ++ s) = lstrip slash s.
Proof. induction n as [|n IH]; [reflexivity|]. cbn [repeat app]. now rewrite lstrip_sep. Qed.

Lemma normpath_written p : normpath p = written (denotes p).
Proof.
  unfold normpath. destruct (posix_normpath_abs p) as [n ->]. rewrite lstrip_repeat, join_head by apply denotes_proper.
  reflexivity.
Qed.

Lemma normpath_idempotent p : normpath (normpath p) = normpath p.
Proof. rewrite !normpath_written. now rewrite denotes_written by apply denotes_proper. Qed.

Lemma query_normpath_norm p : starts_with $"../" p = false -> query_normpath p = normpath p.
Proof. intros H. unfold query_normpath. now rewrite H. Qed.

Lemma query_abs p : query_normpath (slash :: p) = written (denotes p).
Proof. rewrite query_normpath_norm by reflexivity. rewrite normpath_written. now rewrite denotes_cons_slash. Qed.

(** Rows store [written loc] split at the last slash. *)
Definition folder_of (loc : location) : str := match loc with [] => [] | _ => written loc end.

Lemma rsplit_written loc n : Forall proper_name loc -> proper_name n ->
  rsplit1 slash (written (loc ++ [n])) = Some (folder_of loc, n).
Proof.
  intros Hl Hn. apply rsplit1_Some. split; [|apply Hn].
  unfold written, folder_of. destruct loc as [|x r]; [reflexivity|].
  rewrite (join_app _ (x :: r) [n]) by discriminate. reflexivity.
Qed.

Lemma written_nil : written [] = $"/".
Proof. reflexivity. Qed.

Lemma rstrip_written loc : Forall proper_name loc -> rstrip slash (written loc) = folder_of loc.
Proof.
  intros H. destruct loc as [|x r]; [reflexivity|].
  destruct (@exists_last _ (x :: r)) as (l & n & E); [discriminate|]. rewrite E in *.
  assert (Hn : proper_name n) by (apply Forall_app in H as [_ Hn]; now inversion Hn).
  assert (E2 : exists t, written (l ++ [n]) = t ++ n).
  { pose proof (rsplit_written l n) as Hr. apply Forall_app in H as [Hl _]. specialize (Hr Hl Hn).
    apply rsplit1_Some in Hr as [-> _]. exists (folder_of l ++ [slash]). now rewrite <- app_assoc. }
  destruct E2 as [t E2]. unfold folder_of. destruct (l ++ [n]) eqn:E3; [destruct l; discriminate|]. rewrite E2.
  destruct Hn as (Hne & _ & _ & Hs). destruct (exists_last Hne) as (n' & c & ->). rewrite app_assoc.
  apply rstrip_snoc. intros ->. apply Hs. apply in_or_app. right. now left.
Qed.

Lemma folder_of_inj a b : Forall proper_name a -> Forall proper_name b -> folder_of a = folder_of b -> a = b.
Proof.
  intros Ha Hb. unfold folder_of. destruct a, b; try discriminate; [reflexivity|]. apply written_inj; assumption.
Qed.

Lemma written_root loc : Forall proper_name loc -> written loc = $"/" -> loc = [].
Proof. intros H E. apply (written_inj loc []); [assumption|constructor|exact E]. Qed.

Lemma rstrip_tail c x s : s <> [] -> rstrip c (x :: s) = x :: s -> rstrip c s = s.
Proof.
  intros Hne H. destruct (exists_last Hne) as (t & y & ->). destruct (char_eqb_spec y c) as [->|N]; [|now apply rstrip_snoc].
  exfalso. change (x :: t ++ [c]) with ((x :: t) ++ [c]) in H. rewrite rstrip_snoc_sep in H.
  assert (Hl : forall l, length (lstrip c l) <= length l).
  { induction l as [|a l IH]; [apply le_n|]. destruct (char_eqb_spec a c) as [->|Na]; [rewrite lstrip_sep; cbn [length]; lia|].
    rewrite lstrip_id by assumption. apply le_n. }
  apply (f_equal (@length _)) in H. unfold rstrip in H. rewrite rev_length, app_length in H. specialize (Hl (rev (x :: t))). rewrite rev_length in Hl.
  cbn [length] in *. lia.
Qed.

Lemma join_nonempty loc : Forall proper_name loc -> loc <> [] -> join $"/" loc <> [].
Proof. intros H Hne. destruct H as [|x r Hx _]; [congruence|]. destruct x as [|c x]; [now destruct Hx|]. destruct r; discriminate. Qed.

Lemma strip_written loc : Forall proper_name loc -> loc <> [] -> strip slash (written loc) = join $"/" loc.
Proof.
  intros H Hne. unfold strip. unfold written. rewrite lstrip_sep, join_head by assumption.
  apply (rstrip_tail slash slash); [now apply join_nonempty|]. change (slash :: join $"/" loc) with (written loc).
  rewrite rstrip_written by assumption. destruct loc; [congruence|reflexivity].
Qed.
