(** Lemmas for C88 and C89. *)
From Coq Require Import Ascii String.
From Verif Require Import PyBase PyDict PyStr FileInfo Path_Model Path_Spec Path_Proofs Git_Model Git_Spec.
Local Open Scope Z_scope.

Lemma tree_get_find es name : tree_get es name = match find (fun e => str_eqb (fst e) name) es with Some (_, o) => Some o | None => None end.
Proof.
  unfold tree_get. induction es as [|[n o] es IH]; [reflexivity|]. cbn. unfold str_eqb in *.
  destruct (list_eq_dec ascii_dec name n), (list_eq_dec ascii_dec n name); try congruence; auto.
Qed.

Lemma look_up_filter names : forall o, look_up o names = look_up o (filter (fun c => match c with [] => false | _ => true end) names).
Proof.
  induction names as [|[|c n] r IH]; intros o; cbn; [reflexivity|destruct o; apply IH|].
  destruct o; try apply IH. destruct (tree_get _ _); [apply IH|reflexivity].
Qed.

Lemma look_up_found names : forall o x, Forall (fun n => n <> []) names -> object_at o names = Some x -> look_up o names = Some x.
Proof.
  induction names as [|n r IH]; intros o x Hn H; [assumption|]. inversion_clear Hn as [|? ? H1 H2]. cbn in *.
  destruct o as [es| |]; try discriminate. destruct n as [|c n]; [congruence|]. rewrite tree_get_find.
  destruct (find _ es) as [[? o']|]; [|discriminate]. now apply IH.
Qed.

Lemma look_up_missing names : forall o, Forall (fun n => n <> []) names -> only_folders_before o names -> object_at o names = None -> look_up o names = None.
Proof.
  induction names as [|n r IH]; intros o Hn Hf H; [discriminate|]. inversion_clear Hn as [|? ? H1 H2]. cbn in *.
  destruct (Hf [] (n :: r) o) as [es ->]; [reflexivity|discriminate|reflexivity|]. destruct n as [|c n]; [congruence|]. rewrite tree_get_find.
  destruct (find _ es) as [[? o']|] eqn:F; [|reflexivity]. apply IH; try assumption.
  intros a b x -> Hb Hx. apply (Hf ((c :: n) :: a) b x); [reflexivity|assumption|]. cbn. now rewrite F.
Qed.

Lemma look_up_app names names' : forall o, look_up o (names ++ names') = match look_up o names with Some x => look_up x names' | None => None end.
Proof.
  induction names as [|[|c n] r IH]; intros o; cbn; [reflexivity|destruct o; apply IH|].
  destruct o; try apply IH. destruct (tree_get _ _); [apply IH|reflexivity].
Qed.

Lemma components_nonempty p : Forall (fun n => n <> []) (components p).
Proof. apply Forall_forall. intros n H. apply filter_In in H as [_ H]. now destruct n. Qed.

Lemma filter_proper l : Forall proper_name l -> filter (fun c : str => match c with [] => false | _ => true end) l = l.
Proof. intros H. induction H as [|x l Hx Hl IH]; [reflexivity|]. cbn [filter]. destruct x; [now destruct Hx|]. now rewrite IH. Qed.

Lemma components_written loc : Forall proper_name loc -> components (written loc) = loc.
Proof.
  intros H. unfold components. destruct loc as [|n loc]; [reflexivity|]. rewrite split_written by (assumption || discriminate).
  change (filter (fun c : str => match c with [] => false | _ => true end) (n :: loc) = n :: loc). now apply filter_proper.
Qed.

Lemma components_child p n : proper_name n -> components (p ++ slash :: n) = components p ++ [n].
Proof.
  intros (H1 & _ & _ & H). unfold components. rewrite split_app_sep, filter_app, (split_no_sep slash n) by assumption. cbn.
  destruct n; [congruence|reflexivity].
Qed.

Lemma components_app p q : components (p ++ slash :: q) = components p ++ components q.
Proof. unfold components. now rewrite split_app_sep, filter_app. Qed.

Lemma look_up_path_components g p : look_up_path g p = look_up (g_tree g) (components (g_prefix g) ++ components p).
Proof. unfold look_up_path, components. rewrite look_up_filter, filter_app. reflexivity. Qed.

Lemma path_found g p o : object_at (g_tree g) (components (g_prefix g) ++ components p) = Some o -> look_up_path g p = Some o.
Proof. intros H. rewrite look_up_path_components. apply look_up_found; [apply Forall_app; split; apply components_nonempty|assumption]. Qed.

Lemma object_at_app o a b : object_at o (a ++ b) = match object_at o a with Some x => object_at x b | None => None end.
Proof.
  revert o. induction a as [|n a IH]; intros o; [reflexivity|]. cbn. destruct o as [es| |]; try reflexivity.
  destruct (find _ es) as [[? o']|]; [apply IH|reflexivity].
Qed.

Lemma object_at_proper loc : forall o x, proper_tree o -> object_at o loc = Some x -> proper_tree x.
Proof.
  induction loc as [|n loc IH]; intros o x Hp H; [injection H as <-; assumption|]. cbn in H. destruct o as [es| |]; try discriminate.
  destruct (find _ es) as [[m o']|] eqn:F; [|discriminate]. apply find_some in F as [F _]. inversion_clear Hp as [| |? H1 H2]. eapply IH; [|eassumption]. eapply H2, F.
Qed.

Lemma find_entry (es : list (str * gobj)) n o : NoDup (map fst es) -> In (n, o) es -> find (fun e => str_eqb (fst e) n) es = Some (n, o).
Proof.
  induction es as [|[m x] es IH]; intros Hd []; cbn in *; inversion_clear Hd as [|? ? H1 H2].
  - injection H as -> ->. now rewrite str_eqb_refl.
  - destruct (str_eqb_spec m n) as [->|]; [|now apply IH]. exfalso. apply H1. apply in_map_iff. now exists (n, o).
Qed.

Lemma git_mode_kind o : git_mode o = kind_mode o.
Proof. now destruct o as [|[]|]. Qed.

Section Git.
  Variable decode : str -> res str.
  Variables uid gid : Z.

  Lemma git_entries_ok g path es l : git_entries decode uid gid g path es = Ok l ->
    forall name i, In (name, i) l <-> name <> [] /\ exists o, In (name, o) es /\ git_info decode uid gid g o (path ++ slash :: name) = Ok i.
  Proof.
    revert l. induction es as [|[n o] es IH]; intros l H name i; cbn in H.
    - injection H as <-. split; [intros []|intros (_ & o & [] & _)].
    - destruct n as [|c n].
      + rewrite (IH l H). split; intros (H1 & o' & H2 & H3); (split; [assumption|]).
        * exists o'. split; [now right|assumption].
        * destruct H2 as [[= <- <-]|H2]; [congruence|]. now exists o'.
      + destruct (git_info decode uid gid g o (path ++ slash :: c :: n)) as [j|] eqn:E; [|discriminate].
        destruct (git_entries decode uid gid g path es) as [l'|] eqn:E'; [|discriminate]. injection H as <-. cbn [In]. rewrite (IH l' eq_refl). split.
        * intros [[= <- <-]|(H1 & o' & H2 & H3)]; [split; [discriminate|]; exists o; auto|split; [assumption|]; exists o'; auto].
        * intros (H1 & o' & [[= <- <-]|H2] & H3); [left; congruence|right; split; [assumption|]; now exists o'].
  Qed.

  Lemma git_entries_keys g path es l : git_entries decode uid gid g path es = Ok l -> Forall (fun n => n <> []) (map fst es) -> map fst l = map fst es.
  Proof.
    revert l. induction es as [|[n o] es IH]; intros l H Hn; cbn in H; [now injection H as <-|]. inversion_clear Hn as [|? ? H1 H2]. cbn in H1.
    destruct n as [|c n]; [congruence|]. destruct (git_info _ _ _ _ _ _); [|discriminate].
    destruct (git_entries _ _ _ _ _ es) as [l'|]; [|discriminate]. injection H as <-. cbn. f_equal. now apply IH.
  Qed.

  Lemma git_entries_total g path es : (forall n d, In (n, GBlob true d) es -> exists t, decode d = Ok t) -> exists l, git_entries decode uid gid g path es = Ok l.
  Proof.
    induction es as [|[n o] es IH]; intros H; cbn; [now eexists|].
    destruct IH as [l Hl]; [intros m d Hd; apply (H m d); now right|]. rewrite Hl. destruct n as [|c n]; [now eexists|].
    assert (exists i, git_info decode uid gid g o (path ++ slash :: c :: n) = Ok i) as [i ->]; [|now eexists].
    unfold git_info. destruct o as [|[] d|]; try (now eexists). destruct (H (c :: n) d (or_introl eq_refl)) as [t ->]. now eexists.
  Qed.
End Git.

Lemma split1_at_prefix sep a b : sep <> [] -> (forall k, (k < length a)%nat -> starts_with sep (skipn k (a ++ sep ++ b)) = false) ->
  split1_at sep (a ++ sep ++ b) = Some (a, b).
Proof.
  intros Hs. induction a as [|c a IH]; intros H.
  - cbn [app]. destruct (sep ++ b) as [|x l] eqn:E; [destruct sep; [congruence|discriminate]|].
    cbn [split1_at]. rewrite <- E, starts_with_app, skipn_app, skipn_all, Nat.sub_diag. reflexivity.
  - assert (H0 := H 0%nat ltac:(cbn; lia)). cbn [skipn app] in H0. cbn [app split1_at]. rewrite H0. rewrite IH; [reflexivity|].
    intros k Hk. apply (H (S k)). cbn. lia.
Qed.

Lemma split1_app c a b : ~ In c a -> split1 c (a ++ c :: b) = Some (a, b).
Proof. intros H. now apply split1_Some. Qed.
