(** Lemmas for C90. *)
From Coq Require Import Ascii String.
From Verif Require Import PyBase PyDict PyStr FileInfo Path_Model Path_Spec Path_Proofs Hash_Proofs Fsspec_Model Fsspec_Spec.
Local Open Scope Z_scope.

Lemma rstrip_repeat s n : rstrip slash (s ++ repeat slash n) = rstrip slash s.
Proof.
  induction n as [|n IH]; [now rewrite app_nil_r|]. change (repeat slash (S n)) with (slash :: repeat slash n); rewrite repeat_cons, app_assoc, rstrip_snoc_sep. exact IH.
Qed.

Lemma lstrip_all n : lstrip slash (repeat slash n) = [].
Proof. induction n as [|n IH]; [reflexivity|]. cbn [repeat]. now rewrite lstrip_sep. Qed.

Lemma strip_join_id loc : Forall proper_name loc -> strip slash (join $"/" loc) = join $"/" loc.
Proof.
  intros H. destruct loc as [|x r] eqn:E; [reflexivity|]. rewrite <- E in *. assert (N : loc <> []) by congruence.
  rewrite <- (strip_written loc H N) at 2. unfold strip, written. now rewrite lstrip_sep.
Qed.

Lemma rstrip_join_id loc : Forall proper_name loc -> rstrip slash (join $"/" loc) = join $"/" loc.
Proof. intros H. pose proof (strip_join_id loc H) as E. unfold strip in E. now rewrite join_head in E. Qed.

Lemma strip_name n : proper_name n -> strip slash n = n.
Proof. intros H. change n with (join $"/" [n]) at 1. rewrite strip_join_id by (now constructor). reflexivity. Qed.

Lemma strip_sep s : strip slash (slash :: s) = strip slash s.
Proof. unfold strip. now rewrite lstrip_sep. Qed.

Lemma join_snoc loc n : loc <> [] -> join $"/" (loc ++ [n]) = join $"/" loc ++ slash :: n.
Proof. intros H. now rewrite join_app by (assumption || discriminate). Qed.

Lemma strip_slashes s n : strip slash (s ++ repeat slash n) = strip slash s.
Proof.
  unfold strip. induction s as [|a s IH].
  - cbn [app]. now rewrite lstrip_all.
  - cbn [app]. destruct (char_eqb_spec a slash) as [->|Na]; [rewrite !lstrip_sep; exact IH|].
    rewrite !lstrip_id by assumption. apply (rstrip_repeat (a :: s)).
Qed.

Lemma ddel_dset_same {V} (d : list (str * V)) k v : ddel str_eqb (dset str_eqb d k v) k = ddel str_eqb d k.
Proof.
  induction d as [|[k' v'] d IH]; cbn [dset ddel]; [now rewrite str_eqb_refl|].
  destruct (str_eqb k k') eqn:E; cbn [ddel]; rewrite E; [reflexivity|now rewrite IH].
Qed.

Section Fsspec.
  Context {A : Type}.

  Lemma remote_at_app (o : robj A) a b : remote_at o (a ++ b) = match remote_at o a with Some x => remote_at x b | None => None end.
  Proof.
    revert o. induction a as [|n a IH]; intros o; [reflexivity|]. cbn. destruct o as [es|]; [|reflexivity].
    destruct (find _ es) as [[? o']|]; [apply IH|reflexivity].
  Qed.

  Lemma remote_at_proper loc : forall (o x : robj A), proper_remote o -> remote_at o loc = Some x -> proper_remote x.
  Proof.
    induction loc as [|n loc IH]; intros o x Hp H; [injection H as <-; assumption|]. cbn in H. destruct o as [es|]; [|discriminate].
    destruct (find _ es) as [[m o']|] eqn:F; [|discriminate]. apply find_some in F as [F _]. inversion_clear Hp as [|? H1 H2]. eapply IH; [|eassumption]. eapply H2, F.
  Qed.

  Lemma find_child (es : list (str * robj A)) n o : NoDup (map fst es) -> In (n, o) es -> find (fun e => str_eqb (fst e) n) es = Some (n, o).
  Proof.
    induction es as [|[m x] es IH]; intros Hd []; cbn in *; inversion_clear Hd as [|? ? H1 H2].
    - injection H as -> ->. now rewrite str_eqb_refl.
    - destruct (str_eqb_spec m n) as [->|]; [|now apply IH]. exfalso. apply H1. apply in_map_iff. now exists (n, o).
  Qed.

  Lemma lstrip_render abs loc : Forall proper_name loc -> lstrip slash (render abs loc) = join $"/" loc.
  Proof. intros H. destruct abs; cbn [render]; [unfold written; rewrite lstrip_sep|]; now apply join_head. Qed.

  Lemma strip_render abs loc : Forall proper_name loc -> strip slash (render abs loc) = join $"/" loc.
  Proof. intros H. destruct abs; cbn [render]; [unfold written; rewrite strip_sep|]; now apply strip_join_id. Qed.

  Lemma render_app abs pre loc : pre <> [] -> loc <> [] -> render abs (pre ++ loc) = render abs pre ++ slash :: join $"/" loc.
  Proof. intros H1 H2. unfold render, written. rewrite join_app by assumption. now destruct abs. Qed.

  Lemma rstrip_render abs pre : Forall proper_name pre -> pre <> [] -> rstrip slash (render abs pre) = render abs pre.
  Proof.
    intros H N. destruct abs; cbn [render]; [|now apply rstrip_join_id]. rewrite rstrip_written by assumption. now destruct pre.
  Qed.

  Lemma render_nonempty abs pre : Forall proper_name pre -> pre <> [] -> exists c r, render abs pre = c :: r.
  Proof.
    intros H N. destruct (render abs pre) as [|c r] eqn:E; [|now exists c, r]. exfalso. destruct abs; [discriminate|]. cbn in E.
    now apply (join_nonempty pre H N).
  Qed.

  Lemma entry_key_child loc n name : Forall proper_name loc -> proper_name n -> strip slash name = join $"/" (loc ++ [n]) ->
    entry_key (join $"/" loc) name = n.
  Proof.
    intros H Hn E. unfold entry_key. rewrite E. destruct loc as [|x r] eqn:El.
    - change (starts_with (join $"/" []) (join $"/" ([] ++ [n]))) with true. cbv iota. change (strip slash n = n). now apply strip_name.
    - rewrite <- El in *. rewrite join_snoc by congruence. rewrite starts_with_app. rewrite skipn_app, skipn_all, Nat.sub_diag.
      cbn [app skipn]. rewrite strip_sep. now apply strip_name.
  Qed.

  Lemma entry_key_self loc name : Forall proper_name loc -> strip slash name = join $"/" loc -> entry_key (join $"/" loc) name = [].
  Proof.
    intros H E. unfold entry_key. rewrite E. rewrite <- (app_nil_r (join $"/" loc)) at 2. rewrite starts_with_app, skipn_all. reflexivity.
  Qed.

  (** Paths of the mount become paths of the file system. *)
  Lemma get_path_cases quote (fs : remote A) abs tree github prefix pre loc :
    serves fs abs tree -> (github = true -> abs = false) -> names_prefix fs abs tree prefix pre ->
    Forall proper_name pre -> Forall proper_name loc ->
    get_path quote (fsspec_init fs false false github prefix) (written loc) = render abs (pre ++ loc) \/
    (remote_at tree (pre ++ loc) = None /\ r_lexists fs (get_path quote (fsspec_init fs false false github prefix) (written loc)) = false /\
     get_path quote (fsspec_init fs false false github prefix) (written loc) = written (pre ++ loc)).
  Proof.
    intros Sv G P Hp Hl. unfold get_path, fsspec_init. cbn [s_quote s_prefix s_noslash s_fs orb].
    destruct P as [(-> & P)|(N & n & es & Ho & -> & Hd)].
    - assert (E : match prefix with
                  | Some p => match strip slash p with [] => None | _ :: _ => if r_isdir fs p then Some (rstrip slash p) else None end
                  | None => None end = None).
      { destruct P as [->|(n & ->)]; [reflexivity|]. unfold strip. now rewrite lstrip_all. }
      rewrite E. cbn [app].
      assert (L : lstrip slash (written loc) = join $"/" loc) by (unfold written; rewrite lstrip_sep; now apply join_head). rewrite L.
      destruct github.
      + rewrite (G eq_refl). now left.
      + destruct abs; cbn [render].
        * left. destruct (r_lexists fs (written loc)) eqn:X; [reflexivity|]. cbn [negb andb].
          destruct (remote_at tree loc) as [o|] eqn:O.
          -- exfalso. assert (H : r_lexists fs (render true loc) = true) by (apply (sv_exists _ _ _ Sv loc Hl); congruence). cbn [render] in H. congruence.
          -- rewrite (proj2 (sv_other _ _ _ Sv loc Hl) eq_refl O). reflexivity.
        * rewrite (proj1 (sv_other _ _ _ Sv loc Hl) eq_refl). cbn [negb andb].
          destruct (r_lexists fs (join $"/" loc)) eqn:X; [now left|]. right.
          split; [|split; [|reflexivity]].
          -- destruct (remote_at tree loc) eqn:O; [|reflexivity]. exfalso.
             assert (H : r_lexists fs (render false loc) = true) by (apply (sv_exists _ _ _ Sv loc Hl); congruence). cbn [render] in H. congruence.
          -- apply (proj1 (sv_other _ _ _ Sv loc Hl) eq_refl).
    - left. assert (S0 : strip slash (render abs pre ++ repeat slash n) = join $"/" pre).
      { unfold strip. destruct (render_nonempty abs pre Hp N) as (c & r & E).
        assert (L : lstrip slash (render abs pre ++ repeat slash n) = join $"/" pre ++ repeat slash n).
        { destruct abs; cbn [render] in *; [unfold written; cbn [app]; rewrite lstrip_sep|].
          all: pose proof (join_head pre Hp) as J; destruct (join $"/" pre) as [|x t] eqn:Ej; [now destruct (join_nonempty pre Hp N)|];
            cbn [app]; rewrite lstrip_id; [reflexivity|]; eapply lstrip_head; exact J. }
        rewrite L, rstrip_repeat. now apply rstrip_join_id. }
      rewrite S0, Hd. destruct (join $"/" pre) as [|x t] eqn:Ej; [now destruct (join_nonempty pre Hp N)|].
      rewrite rstrip_repeat, rstrip_render by assumption. destruct (render_nonempty abs pre Hp N) as (c & r & E). rewrite E.
      destruct loc as [|y l] eqn:El.
      + cbn. rewrite app_nil_r. congruence.
      + assert (N2 : loc <> []) by congruence. rewrite <- El in *. clear y l El. assert (W : str_eqb (written loc) [] || str_eqb (written loc) $"/" = false).
        { apply orb_false_iff. split; apply str_eqb_neq; [discriminate|]. intros W. apply written_root in W; [congruence|assumption]. }
        rewrite W, <- E. rewrite render_app by assumption. rewrite rstrip_render by assumption. unfold written. rewrite lstrip_sep, join_head by assumption. reflexivity.
  Qed.

  Lemma get_path_found quote (fs : remote A) abs tree github prefix pre loc o :
    serves fs abs tree -> (github = true -> abs = false) -> names_prefix fs abs tree prefix pre ->
    Forall proper_name pre -> Forall proper_name loc -> remote_at tree (pre ++ loc) = Some o ->
    get_path quote (fsspec_init fs false false github prefix) (written loc) = render abs (pre ++ loc).
  Proof.
    intros Sv G P Hp Hl Ho. destruct (get_path_cases quote fs abs tree github prefix pre loc Sv G P Hp Hl) as [H|(H & _)]; [assumption|congruence].
  Qed.

  Lemma render_special abs loc : Forall proper_name loc -> str_eqb (render abs loc) $"/" || str_eqb (render abs loc) [] = match loc with [] => true | _ => false end.
  Proof.
    intros H. destruct loc as [|x r] eqn:E; [now destruct abs|]. rewrite <- E in *. assert (N : loc <> []) by congruence.
    apply orb_false_iff. split; apply str_eqb_neq; intros W.
    - destruct abs; cbn [render] in W; [apply written_root in W; congruence|]. pose proof (join_head loc H) as J. rewrite W in J. discriminate J.
    - destruct (render_nonempty abs loc H N) as (c & t & E2). congruence.
  Qed.

  (** The dictionary of a listing. *)
  Lemma list_dict {V} (f : entry -> V) abs loc (l : list entry) (es : list (str * robj A)) :
    Forall proper_name loc -> NoDup (map fst es) -> (forall n o, In (n, o) es -> proper_name n) ->
    Forall2 (fun e no => describes abs e (loc ++ [fst no]) (snd no)) (filter (fun e => negb (str_eqb (strip slash (e_name e)) (join $"/" loc))) l) es ->
    exists ents, Forall2 (fun e no => describes abs e (loc ++ [fst no]) (snd no)) ents es /\
      ddel str_eqb (dict_of str_eqb (map (fun e => (entry_key (join $"/" loc) (e_name e), f e)) l)) [] =
      map (fun en => (fst (snd en), f (fst en))) (combine ents es).
  Proof.
    intros Hl. set (key := fun e => entry_key (join $"/" loc) (e_name e)).
    assert (G : forall (l : list entry) (es : list (str * robj A)) (d : list (str * V)), NoDup (map fst es) -> (forall n o, In (n, o) es -> proper_name n) ->
      (forall n, In n (map fst es) -> ~ In n (dkeys d)) -> NoDup (dkeys d) ->
      Forall2 (fun e no => describes abs e (loc ++ [fst no]) (snd no)) (filter (fun e => negb (str_eqb (strip slash (e_name e)) (join $"/" loc))) l) es ->
      exists ents, Forall2 (fun e no => describes abs e (loc ++ [fst no]) (snd no)) ents es /\
        ddel str_eqb (fold_left (fun acc '(k, v) => dset str_eqb acc k v) (map (fun e => (key e, f e)) l) d) [] =
        ddel str_eqb d [] ++ map (fun en => (fst (snd en), f (fst en))) (combine ents es)).
    2: { intros N P F. destruct (G l es [] N P (fun _ _ H => H) (NoDup_nil _) F) as (ents & H1 & H2). exists ents. split; [assumption|]. exact H2. }
    clear l es. induction l as [|e l IH]; intros es d N P Hd Nd F.
    - inversion F; subst. exists []. split; [constructor|]. cbn. now rewrite app_nil_r.
    - cbn [map fold_left fst snd]. cbn [filter] in F. destruct (str_eqb_spec (strip slash (e_name e)) (join $"/" loc)) as [E|E]; cbn [negb] in F.
      + assert (K : key e = []) by (apply entry_key_self; assumption). rewrite K.
        destruct (IH es (dset str_eqb d [] (f e)) N P) as (ents & H1 & H2); try assumption.
        * intros n Hn Hi. apply (In_dkeys_dset str_eqb str_eqb_spec) in Hi as [->|Hi]; [|now apply (Hd n)].
          apply in_map_iff in Hn as ([n o] & En & Hn). cbn in En. subst n. now destruct (P _ _ Hn).
        * now apply (NoDup_dset str_eqb str_eqb_spec).
        * exists ents. split; [assumption|]. rewrite H2. f_equal.
          apply ddel_dset_same.
      + inversion F as [|? [n o] ? es' Hde Hrest]; subst. cbn [fst snd map] in *. inversion_clear N as [|? ? Nn N'].
        assert (Pn : proper_name n) by (eapply P; left; reflexivity).
        assert (K : key e = n).
        { apply entry_key_child; try assumption. unfold describes in Hde. destruct o as [es0|dd]; [apply Hde|].
          destruct Hde as (-> & _). apply strip_render. apply Forall_app; split; [assumption|now constructor]. }
        rewrite K.
        destruct (IH es' (dset str_eqb d n (f e)) N') as (ents & H1 & H2); try assumption.
        * intros m x Hm. eapply P. right. exact Hm.
        * intros m Hm Hi. apply (In_dkeys_dset str_eqb str_eqb_spec) in Hi as [->|Hi]; [congruence|]. apply (Hd m); [now right|assumption].
        * now apply (NoDup_dset str_eqb str_eqb_spec).
        * exists (e :: ents). split; [constructor; assumption|]. rewrite H2. cbn [combine map fst snd].
          assert (D : ddel str_eqb (dset str_eqb d n (f e)) [] = ddel str_eqb d [] ++ [(n, f e)]).
          { assert (Hn : ~ In n (dkeys d)) by (apply Hd; now left). clear -Hn Pn. destruct Pn as (Pn & _).
            induction d as [|[k v] d IH]; cbn in *.
            - unfold str_eqb. destruct (list_eq_dec ascii_dec [] n); [congruence|reflexivity].
            - assert (Hk : str_eqb n k = false) by (apply str_eqb_neq; intros ->; apply Hn; now left). rewrite Hk. cbn.
              destruct (str_eqb [] k) eqn:Ek.
              + clear IH. assert (Hn' : ~ In n (map fst d)) by (intros C; apply Hn; now right). clear Hn.
                induction d as [|[k' v'] d IH]; [reflexivity|]. cbn in *.
                assert (Hk' : str_eqb n k' = false) by (apply str_eqb_neq; intros ->; apply Hn'; now left). rewrite Hk'. f_equal. apply IH. intros C. apply Hn'. now right.
              + cbn. f_equal. apply IH. intros C. apply Hn. now right. }
          rewrite D, <- app_assoc. reflexivity.
  Qed.
End Fsspec.

Lemma join_snoc_neq loc n : proper_name n -> str_eqb (join $"/" (loc ++ [n])) (join $"/" loc) = false.
Proof.
  intros Pn. apply str_eqb_neq. intros C. destruct loc as [|x r] eqn:El; [change (n = []) in C; destruct Pn; congruence|]. rewrite <- El in *.
  rewrite join_snoc in C by congruence. apply (f_equal (@length _)) in C. rewrite app_length in C. cbn in C. lia.
Qed.

(** Dictionaries made from pairs. *)
Lemma In_dset {V} (d : list (str * V)) k v x y : In (x, y) (dset str_eqb d k v) -> (x, y) = (k, v) \/ In (x, y) d.
Proof.
  induction d as [|[k' v'] d IH]; cbn [dset]; [intros [H|[]]; auto|]. destruct (str_eqb_spec k k') as [->|]; cbn [In].
  - intros [H|H]; auto.
  - intros [H|H]; [auto|]. destruct (IH H); auto.
Qed.

Lemma In_dict_of {V} (l : list (str * V)) x y : In (x, y) (dict_of str_eqb l) -> In (x, y) l.
Proof.
  induction l as [|[k v] l IH] using rev_ind; [intros []|]. unfold dict_of, dupdate. rewrite fold_left_app. cbn [fold_left].
  intros H. apply In_dset in H as [[= -> ->]|H]; apply in_app_iff; [right; now left|left; now apply IH].
Qed.

Lemma keys_dict_of {V} (l : list (str * V)) k : In k (dkeys (dict_of str_eqb l)) <-> In k (map fst l).
Proof. unfold dict_of. rewrite (In_dkeys_dupdate str_eqb str_eqb_spec). cbn. unfold dkeys. tauto. Qed.

Lemma NoDup_dict_of {V} (l : list (str * V)) : NoDup (dkeys (dict_of str_eqb l)).
Proof. apply (NoDup_dupdate str_eqb str_eqb_spec). constructor. Qed.

Lemma In_ddel {V} (d : list (str * V)) k x y : NoDup (dkeys d) -> In (x, y) (ddel str_eqb d k) <-> In (x, y) d /\ x <> k.
Proof.
  induction d as [|[k' v'] d IH]; intros N; cbn [ddel]; [cbn; tauto|]. cbn [dkeys map fst] in N. inversion_clear N as [|? ? H1 H2].
  destruct (str_eqb_spec k k') as [->|Nk]; cbn [In].
  - split; [|intros [[[= <- <-]|H] Hx]; [congruence|assumption]]. intros H. split; [auto|]. intros ->. apply H1. apply in_map_iff. now exists (k', y).
  - rewrite (IH H2). split; [intros [[= <- <-]|[H Hx]]; auto|intros [[H|H] Hx]; auto].
Qed.

(** A value under a key with only one value. *)
Lemma In_dict_unique {V} (l : list (str * V)) k v : In (k, v) l -> (forall w, In (k, w) l -> w = v) -> In (k, v) (dict_of str_eqb l).
Proof.
  intros Hi Hu. assert (K : In k (dkeys (dict_of str_eqb l))) by (apply keys_dict_of, in_map_iff; now exists (k, v)).
  unfold dkeys in K. apply in_map_iff in K as ([k0 w] & E & K). cbn in E. subst k0. pose proof (Hu w (In_dict_of _ _ _ K)) as ->. exact K.
Qed.

Lemma strip_head c s : c <> slash -> exists t, strip slash (c :: s) = c :: t.
Proof.
  intros Hc. unfold strip. rewrite lstrip_id by assumption. induction s as [|a s IH] using rev_ind.
  - exists []. apply (rstrip_snoc slash [] c). assumption.
  - destruct (char_eqb_spec a slash) as [->|Na].
    + change (c :: s ++ [slash]) with ((c :: s) ++ [slash]). rewrite rstrip_snoc_sep. exact IH.
    + exists (s ++ [a]). change (c :: s ++ [a]) with ((c :: s) ++ [a]). now apply rstrip_snoc.
Qed.

(** Stripping what follows a URL that has no slashes at its ends. *)
Lemma strip_url u x : u <> [] -> strip slash u = u -> x <> [] -> strip slash x <> [] -> strip slash (u ++ slash :: x) = u ++ slash :: rstrip slash x.
Proof.
  intros Hn Hu Hx Hs. unfold strip in Hu |- *.
  assert (L : lstrip slash u = u).
  { destruct (lstrip slash u) as [|c t] eqn:E; [exfalso; rewrite rstrip_nil in Hu; congruence|].
    pose proof (lstrip_head _ _ _ _ E) as Hc. destruct (strip_head c t Hc) as [t' Ht]. unfold strip in Ht. rewrite lstrip_id in Ht by assumption.
    rewrite Ht in Hu. rewrite <- E, <- Hu. now apply lstrip_id. }
  assert (LL : lstrip slash (u ++ slash :: x) = u ++ slash :: x).
  { destruct u as [|a u]; [congruence|]. cbn [app]. apply lstrip_id. eapply lstrip_head. exact L. }
  rewrite LL. clear -Hs. unfold strip in Hs. induction x as [|a x IH] using rev_ind; [now destruct Hs|].
  destruct (char_eqb_spec a slash) as [->|Na].
  - rewrite rstrip_snoc_sep. replace (u ++ slash :: x ++ [slash]) with ((u ++ slash :: x) ++ [slash]) by (now rewrite <- app_assoc).
    rewrite rstrip_snoc_sep. apply IH. intros C. apply Hs.
    pose proof (strip_slashes x 1) as S. unfold strip in S. cbn [repeat] in S. now rewrite S.
  - rewrite rstrip_snoc by assumption. replace (u ++ slash :: x ++ [a]) with ((u ++ slash :: x) ++ [a]) by (now rewrite <- app_assoc). now apply rstrip_snoc.
Qed.

Lemma rstrip_strip x : strip slash x = strip slash (rstrip slash x).
Proof.
  unfold rstrip. pattern x at 1. rewrite <- (rev_involutive x). induction (rev x) as [|a r IH]; [reflexivity|].
  destruct (char_eqb_spec a slash) as [->|Na]; [|now rewrite lstrip_id by assumption].
  rewrite lstrip_sep. cbn [rev]. rewrite <- IH. apply (strip_slashes (rev r) 1).
Qed.

(** The key of an entry below a URL. *)
Lemma entry_key_url u x : u <> [] -> strip slash u = u -> strip slash x <> [] -> entry_key u (u ++ slash :: x) = strip slash x.
Proof.
  intros Hn Hu Hx. unfold entry_key. rewrite strip_url; try assumption; [|intros ->; now destruct Hx].
  rewrite starts_with_app, skipn_app, skipn_all, Nat.sub_diag. cbn [app skipn]. rewrite strip_sep. symmetry. apply rstrip_strip.
Qed.

Lemma url_written quote base loc : url_of quote base loc = base ++ match loc with [] => [] | _ => written (map quote loc) end.
Proof.
  unfold url_of. f_equal. induction loc as [|n [|m loc] IH]; [reflexivity|cbn; now rewrite !app_nil_r|].
  cbn [map concat] in *. rewrite IH. reflexivity.
Qed.

Lemma strip_base base : base <> [] -> strip slash base = base -> lstrip slash base = base /\ rstrip slash base = base.
Proof.
  intros Hn Hu. unfold strip in Hu.
  assert (L : lstrip slash base = base).
  { destruct (lstrip slash base) as [|c t] eqn:E; [exfalso; rewrite rstrip_nil in Hu; congruence|].
    pose proof (lstrip_head _ _ _ _ E) as Hc. destruct (strip_head c t Hc) as [t' Ht]. unfold strip in Ht. rewrite lstrip_id in Ht by assumption.
    rewrite Ht in Hu. rewrite <- E, <- Hu. now apply lstrip_id. }
  split; [assumption|]. now rewrite L in Hu.
Qed.

Section HttpProofs.
  Context {A : Type}.
  Variables quote unquote : str -> str.
  Hypothesis Q : proper_quoting quote unquote.

  Lemma quoted_proper loc : Forall proper_name loc -> Forall proper_name (map quote loc).
  Proof. intros H. induction H as [|n l Hn _ IH]; constructor; [|assumption]. now apply (pq_name _ _ Q). Qed.

  Lemma url_strip base loc : base <> [] -> strip slash base = base -> Forall proper_name loc ->
    url_of quote base loc <> [] /\ strip slash (url_of quote base loc) = url_of quote base loc.
  Proof.
    intros Hn Hb Hl. rewrite url_written. split; [destruct base; [congruence|discriminate]|].
    destruct loc as [|n l] eqn:E; [now rewrite app_nil_r|]. rewrite <- E in *. pose proof (quoted_proper loc Hl) as Hq.
    assert (Nq : map quote loc <> []) by (rewrite E; discriminate).
    change (written (map quote loc)) with (slash :: join $"/" (map quote loc)).
    rewrite strip_url; try assumption; [now rewrite rstrip_join_id|now apply join_nonempty|rewrite strip_join_id by assumption; now apply join_nonempty].
  Qed.

  Lemma http_path (fs : remote A) base n loc : base <> [] -> strip slash base = base -> Forall proper_name loc ->
    r_isdir fs (base ++ repeat slash n) = true ->
    get_path quote (fsspec_init fs true false false (Some (base ++ repeat slash n))) (written loc) = url_of quote base loc.
  Proof.
    intros Hn Hb Hl Hd. unfold get_path, fsspec_init. cbn [s_quote s_prefix orb]. rewrite strip_slashes, Hb, Hd, rstrip_repeat.
    destruct (strip_base base Hn Hb) as [_ Hr]. rewrite Hr. destruct base as [|c b] eqn:E; [congruence|]. rewrite <- E in *. clear c b E.
    rewrite (pq_path _ _ Q). destruct loc as [|m l] eqn:E; [cbn; unfold url_of; cbn; now rewrite app_nil_r|]. rewrite <- E in *.
    pose proof (quoted_proper loc Hl) as Hq.
    assert (Nq : map quote loc <> []) by (rewrite E; discriminate).
    assert (W : str_eqb (written (map quote loc)) [] || str_eqb (written (map quote loc)) $"/" = false).
    { apply orb_false_iff. split; apply str_eqb_neq; [discriminate|]. intros W. apply written_root in W; [congruence|assumption]. }
    rewrite W, Hr, url_written. rewrite E at 2. unfold written. rewrite lstrip_sep, join_head by assumption. reflexivity.
  Qed.
End HttpProofs.
