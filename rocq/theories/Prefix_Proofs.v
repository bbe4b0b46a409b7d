From Coq Require Import Ascii String.
From Verif Require Import PyBase PyDict PyStr Path_Model Path_Spec Path_Proofs FileInfo Union_Model Prefix_Model.
Local Open Scope Z_scope.

(** Paths with a slash after every component. *)
Definition closed (loc : location) : str := flat_map (fun n => n ++ $"/") loc.

Lemma closed_written loc : loc <> [] -> written loc ++ $"/" = slash :: closed loc.
Proof.
  intros H. unfold written. cbn [app]. f_equal. induction loc as [|x r IH]; [congruence|]. destruct r as [|y r].
  - cbn. now rewrite app_nil_r.
  - rewrite join_cons. rewrite <- !app_assoc. rewrite IH by discriminate. unfold closed. cbn [flat_map]. rewrite <- !app_assoc. reflexivity.
Qed.

Lemma first_component x y a b : ~ In slash x -> ~ In slash y -> x ++ slash :: a = y ++ slash :: b -> x = y /\ a = b.
Proof.
  intros Hx Hy E. assert (split slash (x ++ slash :: a) = split slash (y ++ slash :: b)) as Es by now rewrite E.
  rewrite !split_app in Es by assumption. injection Es as -> _. apply app_inv_head in E. injection E as ->. auto.
Qed.

Lemma closed_prefix a : forall b, Forall proper_name a -> Forall proper_name b ->
  (starts_with (closed a) (closed b) = true <-> exists rest, b = a ++ rest).
Proof.
  induction a as [|x a IH]; intros b Ha Hb; [split; [exists b; reflexivity|reflexivity]|].
  inversion Ha as [|? ? Hx Ha']; subst. rewrite starts_with_spec. split.
  - intros [t E]. destruct b as [|y b]; [destruct x; discriminate E|]. inversion Hb as [|? ? Hy Hb']; subst. cbn [closed flat_map] in E. rewrite <- !app_assoc in E. cbn [app] in E.
    apply first_component in E as [Exy E]; [|apply Hy|apply Hx]. subst y. assert (S : starts_with (closed a) (closed b) = true) by (apply starts_with_spec; now exists t).
    apply IH in S as [rest ->]; [|assumption|assumption]. now exists rest.
  - intros [rest ->]. exists (closed rest). unfold closed. now rewrite flat_map_app.
Qed.

Lemma prefix_of_spec path : prefix_of path = slash :: closed (denotes path).
Proof.
  unfold prefix_of.
  assert (D : denotes (lstrip slash path) = denotes path).
  { induction path as [|c r IH]; [reflexivity|]. destruct (char_eqb_spec c slash) as [->|N]; [now rewrite lstrip_sep, denotes_cons_slash|now rewrite lstrip_id]. }
  assert (E : posix_normpath (slash :: lstrip slash path) = written (denotes path)).
  { pose proof (normpath_written (lstrip slash path)) as H. rewrite D in H. rewrite <- H. unfold normpath, posix_normpath.
    destruct (lstrip slash path) as [|c r] eqn:El; [reflexivity|]. apply lstrip_head in El.
    assert (Hs : starts_with $"//" (slash :: c :: r) = false).
    { apply not_true_iff_false. intros S. apply starts_with_spec in S as [t Et]. injection Et as Et _. contradiction. }
    rewrite Hs. cbn [andb]. change (starts_with $"/" (slash :: c :: r)) with true. cbv iota.
    set (comps := fold_left (norm_comp 1) (split slash (slash :: c :: r)) []).
    change (repeat slash 1 ++ join $"/" comps) with (slash :: join $"/" comps). cbv iota. rewrite lstrip_sep.
    assert (Hc : comps = denotes (slash :: c :: r)).
    { unfold comps, denotes. apply norm_walk; [lia| |constructor]. intros x. apply split_In_no_sep. }
    now rewrite Hc, join_head by apply denotes_proper. }
  rewrite E. rewrite rstrip_written by apply denotes_proper. destruct (denotes path) as [|x r]; [reflexivity|].
  unfold folder_of. now apply closed_written.
Qed.

Lemma py_slice_end {A} (p s : list A) x : py_slice (p ++ s ++ [x]) (len p) (-1) = s.
Proof.
  unfold py_slice, py_index. rewrite !len_app. change (len [x]) with 1. pose proof (len_nonneg p). pose proof (len_nonneg s).
  destruct (Z.ltb_spec (len p) 0); [lia|]. change (-1 <? 0) with true. cbv iota.
  replace (Z.min (len p) (len p + (len s + 1))) with (len p) by lia.
  replace (Z.max 0 (Z.max 0 (-1 + (len p + (len s + 1))) - len p)) with (len s) by lia.
  rewrite zslice_app_r by lia. rewrite Z.sub_diag. rewrite zslice_app_l by lia. apply zslice_full; lia.
Qed.

Lemma route_spec pre loc : Forall proper_name pre -> Forall proper_name loc ->
  parse_path (slash :: closed pre) (written loc) =
    if starts_with (closed pre) (closed loc) then ToSource (py_slice (slash :: closed loc) (len (closed pre)) (-1))
    else if starts_with (closed loc) (closed pre) then ToFolder (hd [] (split slash (skipn (length (closed loc)) (closed pre)))) else Nowhere.
Proof.
  intros Hp Hl. unfold parse_path. change (starts_with $"/" (written loc)) with true. cbv iota.
  assert (E : (if ends_with $"/" (written loc) then written loc else written loc ++ $"/") = slash :: closed loc).
  { destruct loc as [|x r]; [reflexivity|]. rewrite <- closed_written by discriminate. destruct (ends_with $"/" (written (x :: r))) eqn:Ee; [|reflexivity].
    exfalso. apply ends_with_spec in Ee as [t Et]. pose proof (rstrip_written (x :: r) Hl) as R. rewrite Et in R. rewrite rstrip_snoc_sep in R.
    unfold folder_of in R. assert (length (rstrip slash t) <= length t)%nat.
    { unfold rstrip. rewrite rev_length. rewrite <- (rev_length t). generalize (rev t). intros u. induction u as [|c u IH]; [apply le_n|]. destruct (char_eqb_spec c slash) as [->|N]; [rewrite lstrip_sep; cbn [length]; lia|rewrite lstrip_id by assumption; lia]. }
    rewrite R, Et, app_length in H. cbn in H. lia. }
  rewrite E. change (starts_with (slash :: closed pre) (slash :: closed loc)) with (starts_with (closed pre) (closed loc)).
  change (starts_with (slash :: closed loc) (slash :: closed pre)) with (starts_with (closed loc) (closed pre)).
  replace (len (slash :: closed pre) - 1) with (len (closed pre)) by (unfold len; cbn [length]; lia). reflexivity.
Qed.

Lemma closed_end loc : slash :: closed loc = folder_of loc ++ [slash].
Proof. destruct loc as [|x r]; [reflexivity|]. unfold folder_of. symmetry. apply (closed_written (x :: r)). discriminate. Qed.

Lemma route_inside pre rest : Forall proper_name pre -> Forall proper_name rest ->
  parse_path (slash :: closed pre) (written (pre ++ rest)) = ToSource (folder_of rest).
Proof.
  intros Hp Hr. rewrite route_spec by (try apply Forall_app; auto).
  assert (E : starts_with (closed pre) (closed (pre ++ rest)) = true) by (apply closed_prefix; [assumption|apply Forall_app; auto|now exists rest]).
  rewrite E. f_equal. unfold closed at 1. rewrite flat_map_app. fold (closed pre) (closed rest).
  change (slash :: closed pre ++ closed rest) with ((slash :: closed pre) ++ closed rest). rewrite closed_end.
  rewrite <- app_assoc. change ([slash] ++ closed rest) with (slash :: closed rest). rewrite closed_end.
  replace (len (closed pre)) with (len (folder_of pre)); [apply py_slice_end|].
  assert (L : len (slash :: closed pre) = len (folder_of pre ++ [slash])) by now rewrite closed_end. rewrite len_app in L. rewrite len_cons in L. change (len [slash]) with 1 in L. lia.
Qed.

Lemma route_above loc n r : Forall proper_name (loc ++ n :: r) -> parse_path (slash :: closed (loc ++ n :: r)) (written loc) = ToFolder n.
Proof.
  intros Hp. pose proof Hp as Hl. apply Forall_app in Hl as [Hl Hn]. inversion Hn; subst. rewrite route_spec by assumption.
  assert (E1 : starts_with (closed (loc ++ n :: r)) (closed loc) = false).
  { apply not_true_iff_false. intros E. apply closed_prefix in E as [rest E]; [|assumption|assumption]. apply (f_equal (@length _)) in E. rewrite !app_length in E. cbn in E. lia. }
  assert (E2 : starts_with (closed loc) (closed (loc ++ n :: r)) = true) by (apply closed_prefix; [assumption|assumption|eauto]).
  rewrite E1, E2. f_equal. unfold closed at 2. rewrite flat_map_app. fold (closed loc). rewrite skipn_app, skipn_all, Nat.sub_diag. cbn [skipn app flat_map].
  rewrite <- app_assoc. match goal with |- context [$"/" ++ ?x] => change ($"/" ++ x) with (slash :: x) end. rewrite split_app by apply H1. reflexivity.
Qed.

Lemma route_elsewhere pre loc : Forall proper_name pre -> Forall proper_name loc -> (forall rest, loc <> pre ++ rest) -> (forall rest, pre <> loc ++ rest) ->
  parse_path (slash :: closed pre) (written loc) = Nowhere.
Proof.
  intros Hp Hl H1 H2. rewrite route_spec by assumption.
  destruct (starts_with (closed pre) (closed loc)) eqn:E1; [apply closed_prefix in E1 as [rest E]; [now apply H1 in E|assumption|assumption]|].
  destruct (starts_with (closed loc) (closed pre)) eqn:E2; [apply closed_prefix in E2 as [rest E]; [now apply H2 in E|assumption|assumption]|]. reflexivity.
Qed.
