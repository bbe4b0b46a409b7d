From Coq Require Import Ascii String.
From Verif Require Import PyBase PyStr Path_Model Path_Spec Path_Proofs Own_Model Own_Spec.

Lemma norm_one p : absolute p -> ~ two_slashes p -> posix_normpath p = written (denotes p).
Proof.
  intros [r ->] H2. unfold posix_normpath.
  assert (S1 : starts_with $"/" (slash :: r) = true) by (cbn; unfold slash; reflexivity).
  assert (S2 : starts_with $"//" (slash :: r) && negb (starts_with $"///" (slash :: r)) = false).
  { destruct (starts_with $"//" (slash :: r)) eqn:E; [|reflexivity]. destruct (starts_with $"///" (slash :: r)) eqn:E3; [reflexivity|].
    exfalso. apply H2. apply starts_with_spec in E as [t E]. cbn in E. injection E as ->. exists t. split; [reflexivity|].
    intros r' ->. cbn in E3. discriminate. }
  rewrite S1, S2. rewrite norm_walk; [|discriminate|apply split_In_no_sep|constructor]. reflexivity.
Qed.

Lemma drop_prefix_Some p : forall s r, drop_prefix p s = Some r <-> s = p ++ r.
Proof.
  induction p as [|a p IH]; intros s r; cbn [drop_prefix app]; [split; congruence|].
  destruct s as [|b s]; [split; discriminate|]. destruct (char_eqb_spec a b) as [->|N].
  - rewrite IH. split; [now intros ->|now intros [= ->]].
  - split; [discriminate|]. intros [= E _]. congruence.
Qed.

Section Own.
  Variable base : location.
  Hypothesis Hb : Forall proper_name base.
  Hypothesis Hne : base <> [].

  Lemma provided_iff p sub : absolute p -> ~ two_slashes p ->
    path_provided_by_us (written base) p = Some sub <-> exists rest, names_inside base p rest /\ sub = join $"/" rest.
  Proof.
    intros Ha H2. unfold path_provided_by_us. rewrite norm_one by assumption. pose proof (denotes_proper p) as Hd.
    unfold names_inside. set (d := denotes p) in *. clearbody d.
    assert (W : forall rest, rest <> [] -> written (base ++ rest) = (written base ++ $"/") ++ join $"/" rest).
    { intros rest Hr. unfold written. rewrite join_app by assumption. cbn [app]. now rewrite <- app_assoc. }
    destruct (str_eqb_spec (written d) (written base)) as [E|N].
    - apply written_inj in E; [|assumption|assumption]. subst d. split.
      + intros [= <-]. exists []. rewrite app_nil_r. auto.
      + intros (rest & E & ->). assert (rest = []) as -> by (apply (app_inv_head base); now rewrite app_nil_r). reflexivity.
    - unfold removeprefix. destruct (drop_prefix (written base ++ $"/") (written d)) as [r|] eqn:D.
      + apply drop_prefix_Some in D.
        assert (Nr : str_eqb r (written d) = false).
        { apply str_eqb_neq. intros ->. apply (f_equal (@length _)) in D. rewrite !app_length in D. unfold written in D. cbn in D. lia. }
        rewrite Nr.
        assert (Hdn : d <> []) by (intros ->; unfold written in D; apply (f_equal (@length _)) in D; rewrite !app_length in D;
           cbn in D; lia).
        assert (Ed : d = base ++ split slash r).
        { pose proof (split_written d Hd Hdn) as S. rewrite D in S. rewrite <- app_assoc in S. cbn [list_ascii_of_string app] in S.
          change "/"%char with slash in S. rewrite split_app_sep, split_written in S by assumption. cbn [app] in S. now injection S. }
        assert (Ej : join $"/" (split slash r) = r) by apply join_split.
        split.
        * intros [= <-]. exists (split slash r). auto.
        * intros (rest & E & ->). f_equal. rewrite <- Ej. f_equal. apply (app_inv_head base). congruence.
      + rewrite str_eqb_refl. split; [discriminate|]. intros (rest & E & ->). exfalso. destruct rest as [|x rest].
        * rewrite app_nil_r in E. subst d. congruence.
        * subst d. rewrite W in D by discriminate.
          assert (X : drop_prefix (written base ++ $"/") ((written base ++ $"/") ++ join $"/" (x :: rest)) = Some (join $"/" (x :: rest)))
            by now apply drop_prefix_Some.
          congruence.
  Qed.

  Lemma ours_iff p : absolute p -> ~ two_slashes p -> ours (written base) p = true <-> inside base p.
  Proof.
    intros Ha H2. unfold ours, inside. destruct (path_provided_by_us (written base) p) as [sub|] eqn:E.
    - apply provided_iff in E as (rest & E & _); [|assumption|assumption]. split; [now exists rest|reflexivity].
    - split; [discriminate|]. intros [rest H].
      assert (X : path_provided_by_us (written base) p = Some (join $"/" rest)) by (apply provided_iff; [assumption|assumption|now exists rest]).
      congruence.
  Qed.
End Own.

Lemma written_abs loc : absolute (written loc).
Proof. eexists. reflexivity. Qed.

Lemma written_not_two loc : Forall proper_name loc -> ~ two_slashes (written loc).
Proof.
  intros H (r & E & _). assert (E' : join $"/" loc = slash :: r) by (unfold written in E; congruence).
  pose proof (join_head loc H) as J. rewrite E' in J. rewrite lstrip_sep in J.
  pose proof (lstrip_head slash r slash r J). congruence.
Qed.

Lemma strip_join rest : Forall proper_name rest -> strip slash (join $"/" rest) = [] <-> rest = [].
Proof.
  intros H. split; [|now intros ->]. intros E. destruct rest as [|x r]; [reflexivity|]. exfalso.
  assert (W : strip slash (written (x :: r)) = join $"/" (x :: r)) by (apply strip_written; [assumption|discriminate]).
  unfold strip in *. unfold written in W. rewrite lstrip_sep in W. rewrite W in E.
  apply (join_nonempty (x :: r)); [assumption|discriminate|assumption].
Qed.

Lemma count_sub_0 needle s : needle <> [] -> count_sub needle s = 0 <-> forall a b, s <> a ++ needle ++ b.
Proof.
  intros Hn. induction s as [|c s IH].
  - split; [|reflexivity]. intros _ a b E. destruct needle; [congruence|]. destruct a; discriminate.
  - cbn [count_sub]. destruct (starts_with needle (c :: s)) eqn:S.
    + split; [lia|]. intros H. exfalso. apply starts_with_spec in S as [t S]. apply (H [] t). exact S.
    + cbn [Nat.add]. rewrite IH. split.
      * intros H [|x a] b E.
        -- assert (X : starts_with needle (c :: s) = true) by (apply starts_with_spec; exists b; exact E). congruence.
        -- cbn [app] in E. injection E as _ E. apply (H a b E).
      * intros H a b E. apply (H (c :: a) b). cbn [app]. now rewrite E.
Qed.

Lemma contains_false needle s : needle <> [] -> (forall a b, s <> a ++ needle ++ b) -> contains needle s = false.
Proof. intros Hn H. unfold contains. apply count_sub_0 in H; [|assumption]. now rewrite H. Qed.

Lemma existsb_false {X} (f : X -> bool) l : existsb f l = false <-> forall x, In x l -> f x = false.
Proof.
  split.
  - intros H x Hi. destruct (f x) eqn:E; [|reflexivity]. assert (existsb f l = true) by (apply existsb_exists; now exists x). congruence.
  - intros H. destruct (existsb f l) eqn:E; [|reflexivity]. apply existsb_exists in E as (x & Hi & E). rewrite (H x Hi) in E. discriminate.
Qed.

Lemma filter_file_plain mp realpath o g : io_file o = Some g -> (forall a b, g <> a ++ $"://" ++ b) ->
  io_file (filter_index_locations mp realpath o) =
  if ours mp (realpath g)
  then match io_folders (filter_index_locations mp realpath o) with Some (_ :: _) => None | _ => Some $":memory:" end
  else Some (realpath g).
Proof.
  intros Ef Hg. unfold filter_index_locations. rewrite Ef. cbv zeta.
  assert (C : count_sub $"://" g = 0) by (apply count_sub_0; [discriminate|assumption]).
  rewrite C. cbn [Nat.eqb]. rewrite contains_false by (assumption || discriminate).
  destruct (ours mp (realpath g)); cbn [orb io_file io_folders].
  - destruct (option_map _ (io_folders o)) as [[|]|]; reflexivity.
  - reflexivity.
Qed.
