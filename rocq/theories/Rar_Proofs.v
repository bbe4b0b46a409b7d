From Coq Require Import Ascii String.
From Verif Require Import PyBase PyDict PyStr Path_Model Path_Spec Path_Proofs FileInfo Rar_Model Rar_Spec.

(** ** The cleaned path *)
Lemma dots_norm k loc c : Forall proper_name loc -> ~ In slash c ->
  exists k', norm_comp 0 (repeat $".." k ++ loc) c = repeat $".." k' ++ enter loc c.
Proof.
  intros H Hs. unfold norm_comp, enter. destruct (str_eqb_spec c []) as [->|N1]; [now exists k|].
  destruct (str_eqb_spec c $".") as [->|N2]; [now exists k|]. cbn [orb]. destruct (str_eqb_spec c $"..") as [->|N3].
  - cbn [negb orb Nat.eqb andb]. destruct loc as [|x loc].
    + rewrite app_nil_r. cbn [removelast]. destruct k as [|k].
      * cbn [repeat orb app]. exists 1%nat. reflexivity.
      * replace (match rev (repeat $".." (S k)) with last :: _ => str_eqb last $".." | [] => false end) with true.
        2:{ replace (repeat $".." (S k)) with (repeat $".." k ++ [$".."]) by now rewrite <- repeat_cons. now rewrite rev_app_distr. }
        rewrite orb_true_r. exists (S (S k)). rewrite app_nil_r. change (repeat $".." (S (S k))) with ($".." :: repeat $".." (S k)). now rewrite repeat_cons.
    + destruct (exists_last (l := x :: loc)) as (front & y & E); [discriminate|]. rewrite E. rewrite app_assoc, rev_app_distr. cbn [rev app].
      assert (Y : proper_name y) by (rewrite Forall_forall in H; apply H; rewrite E; apply in_or_app; right; now left).
      destruct Y as (_ & _ & Y & _). destruct (str_eqb_spec y $".."); [congruence|].
      replace (match (repeat $".." k ++ front) ++ [y] with [] => true | _ => false end) with false by now destruct ((repeat $".." k ++ front)).
      cbn [orb]. exists k. rewrite removelast_last. now rewrite removelast_last.
  - cbn [negb orb]. exists k. now rewrite app_assoc.
Qed.

Lemma dots_walk comps : (forall c, In c comps -> ~ In slash c) -> forall k loc, Forall proper_name loc ->
  exists k', fold_left (norm_comp 0) comps (repeat $".." k ++ loc) = repeat $".." k' ++ fold_left enter comps loc.
Proof.
  induction comps as [|c comps IH]; intros Hs k loc H; cbn [fold_left]; [now exists k|].
  destruct (dots_norm k loc c H (Hs c (or_introl eq_refl))) as (k1 & E). rewrite E. apply IH; [intros x I; apply Hs; now right|].
  apply enter_proper; [exact H|]. apply Hs. now left.
Qed.

Lemma join_dots k loc : loc <> [] -> join $"/" (repeat $".." k ++ loc) = concat (repeat $"../" k) ++ join $"/" loc.
Proof.
  intros H. induction k as [|k IH]; [reflexivity|]. cbn [repeat app concat].
  destruct (repeat $".." k ++ loc) as [|x r] eqn:E; [destruct k; [now cbn in E|discriminate]|]. rewrite join_cons, IH. reflexivity.
Qed.

Lemma normpath_relative name : relative name -> exists k, posix_normpath name = concat (repeat $"../" k) ++ join $"/" (denotes name).
Proof.
  intros (R & D). unfold posix_normpath. destruct name as [|c name]; [now cbn in D|].
  assert (S : starts_with $"/" (c :: name) = false).
  { cbn [starts_with list_ascii_of_string]. destruct (char_eqb_spec "/"%char c) as [<-|N]; [exfalso; now apply (R name)|reflexivity]. }
  rewrite S. cbn [repeat app]. unfold denotes in *. destruct (dots_walk (split slash (c :: name)) (fun x => split_In_no_sep slash _ x) 0 [] (Forall_nil _)) as (k & E).
  cbn [repeat app] in E. rewrite E. exists k. rewrite join_dots by exact D.
  destruct (concat (repeat $"../" k) ++ join $"/" (fold_left enter (split slash (c :: name)) [])) eqn:Z; [|reflexivity].
  exfalso. apply app_eq_nil in Z as (_ & Z). revert Z. apply join_nonempty; [|exact D]. apply (denotes_proper (c :: name)).
Qed.

Definition key (loc : location) (folder : bool) : str := join $"/" loc ++ (if folder then $"/" else []).

Lemma split_key loc f : Forall proper_name loc -> loc <> [] -> split slash (key loc f) = loc ++ (if f then [[]] else []).
Proof.
  intros H N. unfold key. destruct f.
  - change (join $"/" loc ++ $"/") with (join $"/" loc ++ slash :: []). rewrite split_app_sep. change (split slash []) with [@nil ascii].
    f_equal. apply (split_join slash); [exact N|now apply proper_no_slash].
  - rewrite !app_nil_r. apply (split_join slash); [exact N|now apply proper_no_slash].
Qed.

Lemma key_head loc f : Forall proper_name loc -> loc <> [] -> starts_with $"../" (key loc f) = false.
Proof.
  intros H N. destruct (starts_with $"../" (key loc f)) eqn:E; [|reflexivity]. exfalso. apply starts_with_spec in E as (t & E).
  pose proof (split_key loc f H N) as S.
  rewrite E in S. change ($"../" ++ t) with ($".." ++ slash :: t) in S. rewrite split_app in S by (cbn; intuition discriminate).
  destruct loc as [|x loc]; [congruence|]. injection S as <- _. apply Forall_inv in H. destruct H as (_ & _ & Y & _). now apply Y.
Qed.

Lemma drop_dots k loc f n : Forall proper_name loc -> loc <> [] -> (k <= n)%nat ->
  drop_parents n (concat (repeat $"../" k) ++ key loc f) = key loc f.
Proof.
  intros H N. revert n. induction k as [|k IH]; intros n L.
  - cbn [repeat concat app]. destruct n as [|n]; [reflexivity|]. cbn [drop_parents]. now rewrite key_head.
  - destruct n as [|n]; [lia|]. cbn [repeat concat drop_parents]. rewrite <- app_assoc, starts_with_app. apply IH. lia.
Qed.

Definition is_folder_name (name : str) : bool := ends_with $"/" name.
Lemma clean_key name : relative name -> clean_path name = key (denotes name) (is_folder_name name).
Proof.
  intros R. unfold clean_path. destruct (normpath_relative name R) as (k & E). rewrite E.
  rewrite <- app_assoc. change (join $"/" (denotes name) ++ (if ends_with $"/" name then $"/" else [])) with (key (denotes name) (is_folder_name name)).
  apply drop_dots; [apply denotes_proper|apply R|]. rewrite app_length. enough (L : (k <= length (concat (repeat $"../" k)))%nat) by lia.
  clear. induction k as [|k IH]; [constructor|]. cbn [repeat concat]. rewrite app_length. change (length $"../") with 3%nat. lia.
Qed.
Lemma folder_name_spec name : is_folder_name name = true <-> exists p, name = p ++ $"/".
Proof. apply ends_with_spec. Qed.

Lemma key_inj a f b g : Forall proper_name a -> Forall proper_name b -> a <> [] -> b <> [] -> key a f = key b g -> a = b /\ f = g.
Proof.
  intros Ha Hb Na Nb E. pose proof (f_equal (split slash) E) as S. rewrite !split_key in S by assumption.
  destruct f, g.
  - apply app_inj_tail in S as (S & _). now split.
  - exfalso. rewrite app_nil_r in S. rewrite <- S in Hb. apply Forall_app in Hb as (_ & Hb). inversion Hb as [|? ? (Y & _) _]. congruence.
  - exfalso. rewrite app_nil_r in S. rewrite S in Ha. apply Forall_app in Ha as (_ & Ha). inversion Ha as [|? ? (Y & _) _]. congruence.
  - rewrite !app_nil_r in S. now split.
Qed.

Lemma rstrip_join loc : Forall proper_name loc -> rstrip slash (join $"/" loc) = join $"/" loc.
Proof.
  intros H. destruct loc as [|x r]; [reflexivity|]. assert (N : x :: r <> []) by discriminate.
  pose proof (strip_written (x :: r) H N) as S. unfold strip, written in S. rewrite lstrip_sep, join_head in S by assumption. exact S.
Qed.
Lemma rstrip_key loc f : Forall proper_name loc -> rstrip slash (key loc f) = join $"/" loc.
Proof.
  intros H. unfold key. destruct f; [|rewrite app_nil_r; now apply rstrip_join].
  change $"/" with [slash] at 2. rewrite rstrip_snoc_sep. now apply rstrip_join.
Qed.
Lemma join_inj a b : Forall proper_name a -> Forall proper_name b -> join $"/" a = join $"/" b -> a = b.
Proof. intros Ha Hb E. apply written_inj; try assumption. unfold written. now rewrite E. Qed.

(** ** Prefixes *)
Lemma key_below loc rest f : loc <> [] -> rest <> [] -> key (loc ++ rest) f = (join $"/" loc ++ $"/") ++ key rest f.
Proof. intros A B. unfold key. rewrite join_app by assumption. now rewrite <- !app_assoc. Qed.

Lemma below_key loc loc' f t : Forall proper_name loc -> Forall proper_name loc' -> loc <> [] -> loc' <> [] ->
  key loc' f = (join $"/" loc ++ $"/") ++ t -> exists rest, loc' = loc ++ rest /\ (t = [] /\ rest = [] /\ f = true \/ rest <> [] /\ t = key rest f).
Proof.
  intros Ha Hb Na Nb E. pose proof (f_equal (split slash) E) as S. rewrite split_key in S by assumption.
  rewrite <- app_assoc in S. change ($"/" ++ t) with (slash :: t) in S. rewrite split_app_sep, split_join in S by (try assumption; now apply proper_no_slash).
  destruct f.
  - destruct (split slash t) as [|y l] eqn:T; [now apply split_nonempty in T|]. destruct (exists_last (l := y :: l)) as (front & z & Z); [discriminate|].
    rewrite Z, app_assoc in S. apply app_inj_tail in S as (S & <-). exists front. split; [exact S|].
    assert (J : t = join $"/" (front ++ [[]])) by (rewrite <- Z, <- T; symmetry; apply (join_split slash t)).
    destruct front as [|u front]; [left; now split|right]. split; [discriminate|]. rewrite J, join_app by discriminate. unfold key. cbn [join]. now rewrite app_nil_r.
  - rewrite app_nil_r in S. exists (split slash t). split; [exact S|]. right. split; [apply split_nonempty|]. unfold key. rewrite app_nil_r.
    symmetry. apply (join_split slash t).
Qed.

Lemma first_of rest n : Forall proper_name (n :: rest) -> forall f, strip slash (key (n :: rest) f) = join $"/" (n :: rest) /\
  (match split1 slash (join $"/" (n :: rest)) with Some (first, _) => Some first | None => Some (join $"/" (n :: rest)) end) = Some n.
Proof.
  intros H f. split.
  - unfold strip. assert (L : lstrip slash (key (n :: rest) f) = key (n :: rest) f).
    { unfold key. inversion H as [|? ? (Y1 & _ & _ & Y2) _]; subst. destruct n as [|c n]; [congruence|].
      assert (C : c <> slash) by (intros ->; apply Y2; now left).
      destruct rest as [|m rest]; cbn [join app]; now apply lstrip_id. }
    rewrite L. now apply rstrip_key.
  - inversion H as [|? ? (Y1 & _ & _ & Y2) _]; subst. destruct rest as [|m rest].
    + cbn [join]. destruct (split1 slash n) as [[a b]|] eqn:E; [|reflexivity]. apply split1_Some in E as (E & _). exfalso. apply Y2. rewrite E. apply in_or_app. right. now left.
    + rewrite join_cons. change ($"/" ++ join $"/" (m :: rest)) with (slash :: join $"/" (m :: rest)).
      assert (E : split1 slash (n ++ slash :: join $"/" (m :: rest)) = Some (n, join $"/" (m :: rest))) by (apply split1_Some; now split).
      now rewrite E.
Qed.

Lemma prefix_of loc : Forall proper_name loc -> folder_prefix (written loc) = match loc with [] => [] | _ => join $"/" loc ++ $"/" end.
Proof.
  intros H. unfold folder_prefix. destruct loc as [|x r]; [reflexivity|]. rewrite strip_written by (assumption || discriminate).
  destruct (join $"/" (x :: r)) eqn:E; [|reflexivity]. exfalso. revert E. now apply join_nonempty.
Qed.

Lemma get_name_key loc loc' f n : Forall proper_name loc -> Forall proper_name loc' -> loc' <> [] ->
  get_name (folder_prefix (written loc)) (key loc' f) = Some n <-> exists rest, loc' = loc ++ n :: rest.
Proof.
  intros Ha Hb Nb. rewrite prefix_of by exact Ha. destruct loc as [|x loc].
  - unfold get_name. cbn [starts_with negb length skipn app]. destruct loc' as [|m rest]; [congruence|].
    destruct (first_of rest m Hb f) as (S1 & S2). rewrite S1.
    destruct (join $"/" (m :: rest)) eqn:E; [exfalso; revert E; now apply join_nonempty|]. rewrite S2. split.
    + intros Q. injection Q as ->. now exists rest.
    + intros (rest' & Q). now injection Q as -> _.
  - unfold get_name. set (l := x :: loc) in *. assert (Na : l <> []) by discriminate.
    destruct (starts_with (join $"/" l ++ $"/") (key loc' f)) eqn:SW; cbn [negb].
    + apply starts_with_spec in SW as (t & E). rewrite E. rewrite skipn_app, skipn_all, Nat.sub_diag. cbn [app skipn].
      destruct (below_key l loc' f t Ha Hb Na Nb E) as (rest & R & [(-> & -> & ->)|(NR & ->)]).
      * change (strip slash []) with (@nil ascii). split; [discriminate|]. intros (rest & Q). rewrite app_nil_r in R. rewrite R in Q.
        exfalso. apply (f_equal (@length str)) in Q. rewrite app_length in Q. cbn [length] in Q. lia.
      * destruct rest as [|m rest]; [congruence|]. assert (Hr : Forall proper_name (m :: rest)) by (rewrite R in Hb; now apply Forall_app in Hb).
        destruct (first_of rest m Hr f) as (S1 & S2). rewrite S1.
        destruct (join $"/" (m :: rest)) eqn:E2; [exfalso; revert E2; now apply join_nonempty|]. rewrite S2. split.
        -- intros Q. injection Q as ->. now exists rest.
        -- intros (rest' & Q). rewrite R in Q. apply app_inv_head in Q. now injection Q as -> _.
    + split; [discriminate|]. intros (rest & ->). exfalso. rewrite key_below in SW by (assumption || discriminate). now rewrite starts_with_app in SW.
Qed.

(** ** The dictionary of files *)
Lemma In_rar_files l k i : In (k, i) (rar_files l) -> exists name, In (name, i) l /\ k = clean_path name.
Proof.
  unfold rar_files. set (m := map _ l). assert (G : forall p, In p (dict_of str_eqb m) -> In p m).
  { clear. induction m as [|[k v] m IH] using rev_ind; [intros p []|]. intros p. unfold dict_of, dupdate. rewrite fold_left_app. cbn [fold_left].
    intros I. apply in_or_app. fold (dupdate str_eqb (@nil (str * rar_info)) m) in I. fold (dict_of str_eqb m) in I. revert I.
    generalize (dict_of str_eqb m), IH. clear IH. intros d IH I.
    assert (J : In p d \/ p = (k, v)).
    { clear IH. induction d as [|[k' v'] d IHd]; cbn [dset] in I; [destruct I as [<-|[]]; now right|].
      destruct (str_eqb_spec k k') as [->|N].
      - destruct I as [<-|I]; [now right|left; now right].
      - destruct I as [<-|I]; [left; now left|]. destruct (IHd I) as [J|J]; [left; now right|now right]. }
    destruct J as [J|J]; [left; now apply IH|right; now left]. }
  intros I. apply G in I. apply in_map_iff in I as ([name j] & E & I). injection E as <- <-. now exists name.
Qed.

Lemma keys_rar_files l k : In k (map fst (rar_files l)) <-> exists name i, In (name, i) l /\ k = clean_path name.
Proof.
  change (map fst (rar_files l)) with (dkeys (rar_files l)). unfold rar_files, dict_of. rewrite (In_dkeys_dupdate str_eqb str_eqb_spec). unfold dkeys. rewrite map_map. cbn [map In]. split.
  - intros [[]|I]. apply in_map_iff in I as ([name i] & <- & I). now exists name, i.
  - intros (name & i & I & ->). right. apply in_map_iff. now exists (name, i).
Qed.
Lemma nodup_rar_files l : NoDup (map fst (rar_files l)).
Proof. unfold rar_files, dict_of. apply (NoDup_dupdate str_eqb str_eqb_spec). constructor. Qed.

Lemma last_rar_files before name i after : Forall (fun e => clean_path (fst e) <> clean_path name) after ->
  In (clean_path name, i) (rar_files (before ++ (name, i) :: after)).
Proof.
  intros H. assert (G : dget str_eqb (rar_files (before ++ (name, i) :: after)) (clean_path name) = Some i).
  { unfold rar_files. rewrite map_app. cbn [map]. revert H. induction after as [|[n' j] after IH] using rev_ind; intros H.
    - cbn [map]. rewrite (dget_dict_of_snoc str_eqb str_eqb_spec). now rewrite str_eqb_refl.
    - apply Forall_app in H as (H1 & H2). rewrite map_app. cbn [map]. rewrite app_comm_cons, app_assoc.
      rewrite (dget_dict_of_snoc str_eqb str_eqb_spec). apply Forall_inv in H2. cbn [fst] in H2.
      destruct (str_eqb_spec (clean_path name) (clean_path n')); [congruence|]. now apply IH. }
  revert G. generalize (rar_files (before ++ (name, i) :: after)). intros d. induction d as [|[k v] d IH]; cbn [dget]; [discriminate|].
  destruct (str_eqb_spec (clean_path name) k) as [<-|N]; intros E; [injection E as ->; now left|right; now apply IH].
Qed.

Section Archive.
Variable infolist : list (str * rar_info).
Hypothesis Hrel : Forall (fun e => relative (fst e)) infolist.
Notation files := (rar_files infolist).

Lemma rel name i : In (name, i) infolist -> relative name.
Proof. intros I. rewrite Forall_forall in Hrel. apply (Hrel _ I). Qed.
Lemma files_keys k i : In (k, i) files -> exists name, In (name, i) infolist /\ relative name /\ k = key (denotes name) (is_folder_name name).
Proof.
  intros I. apply In_rar_files in I as (name & I & ->). exists name. pose proof (rel name i I) as R. split; [exact I|]. split; [exact R|]. now apply clean_key.
Qed.
Lemma entry_key name i : In (name, i) infolist -> exists j, In (key (denotes name) (is_folder_name name), j) files.
Proof.
  intros I. assert (K : In (clean_path name) (map fst files)) by (apply keys_rar_files; now exists name, i).
  rewrite clean_key in K by now apply (rel name i). apply in_map_iff in K as ([k j] & E & K). cbn in E. subst k. now exists j.
Qed.

Lemma comprehend_keys {V} (value : str -> rar_info -> V) loc n : Forall proper_name loc ->
  In n (map fst (comprehend files (written loc) value)) <-> exists name i rest, In (name, i) infolist /\ denotes name = loc ++ n :: rest.
Proof.
  intros H. unfold comprehend. match goal with |- In n (map fst (dict_of _ ?m)) <-> _ => set (l := m) end.
  change (map fst (dict_of str_eqb l)) with (dkeys (dict_of str_eqb l)). unfold dict_of. rewrite (In_dkeys_dupdate str_eqb str_eqb_spec). unfold dkeys. cbn [map In].
  transitivity (exists k i, In (k, i) files /\ get_name (folder_prefix (written loc)) k = Some n /\ n <> []).
  - subst l. split.
    + intros [[]|I]. apply in_map_iff in I as ([n' v] & E & I). cbn in E. subst n'. apply in_flat_map in I as ([k i] & J & I). exists k, i. split; [exact J|].
      destruct (get_name (folder_prefix (written loc)) k) as [[|c m]|]; try now destruct I. destruct I as [I|[]]. injection I as <- _. split; [reflexivity|discriminate].
    + intros (k & i & J & G & N). right. apply in_map_iff. exists (n, value k i). split; [reflexivity|]. apply in_flat_map. exists (k, i). split; [exact J|].
      rewrite G. destruct n as [|c m]; [congruence|]. now left.
  - split.
    + intros (k & i & J & G & _). apply files_keys in J as (name & I & R & ->). apply get_name_key in G as (rest & E); [|exact H|apply denotes_proper|apply R].
      now exists name, i, rest.
    + intros (name & i & rest & I & E). destruct (entry_key name i I) as (j & J). pose proof (denotes_proper name) as P. exists (key (denotes name) (is_folder_name name)), j.
      split; [exact J|]. split; [apply get_name_key; [exact H|exact P|apply (rel name i I)|now exists rest]|].
      rewrite E in P. apply Forall_app in P as (_ & P). apply Forall_inv in P. apply P.
Qed.

Lemma as_dir loc : Forall proper_name loc -> loc <> [] -> str_eqb (strip slash (written loc) ++ $"/") $"/" = false.
Proof.
  intros H N. rewrite strip_written by assumption. apply str_eqb_neq. intros E. apply (f_equal (@length ascii)) in E. rewrite app_length in E.
  pose proof (join_nonempty loc H N) as J. destruct (join $"/" loc) as [|c s]; [congruence|]. cbn in E. lia.
Qed.
Lemma lstrip_written loc : Forall proper_name loc -> lstrip slash (written loc) = join $"/" loc.
Proof. intros H. unfold written. rewrite lstrip_sep. now apply join_head. Qed.

Lemma at_location loc name f : Forall proper_name loc ->
  str_eqb (rstrip slash (key (denotes name) f)) (lstrip slash (written loc)) = true <-> denotes name = loc.
Proof.
  intros H. rewrite rstrip_key by apply denotes_proper. rewrite lstrip_written by exact H. rewrite str_eqb_eq. split; [|congruence].
  apply join_inj; [apply denotes_proper|exact H].
Qed.

Lemma below_location loc name f : Forall proper_name loc -> loc <> [] -> denotes name <> [] ->
  starts_with (strip slash (written loc) ++ $"/") (rstrip slash (key (denotes name) f)) = true <-> exists n rest, denotes name = loc ++ n :: rest.
Proof.
  intros H N D. rewrite rstrip_key by apply denotes_proper. rewrite strip_written by assumption. split.
  - intros S. apply starts_with_spec in S as (t & E).
    destruct (below_key loc (denotes name) false t H (denotes_proper name) N D) as (rest & Q & [(_ & _ & Z)|(NR & _)]);
      [unfold key; now rewrite app_nil_r|discriminate|]. destruct rest as [|n rest]; [congruence|]. now exists n, rest.
  - intros (n & rest & ->). rewrite join_app by (assumption || discriminate). rewrite app_assoc. apply starts_with_app.
Qed.

Variables now uid gid : Z.
Notation lookups := (rar_lookups now uid gid files).
Notation here loc := (filter (fun '(p, _) => str_eqb (rstrip slash p) (lstrip slash (written loc))) files).

Lemma here_spec loc k i : Forall proper_name loc -> In (k, i) (here loc) ->
  In (k, i) files /\ exists name, In (name, i) infolist /\ denotes name = loc /\ k = key loc (is_folder_name name).
Proof.
  intros H I. apply filter_In in I as (I & E). split; [exact I|]. apply files_keys in I as (name & I & R & ->). apply at_location in E; [|exact H].
  exists name. split; [exact I|]. split; [exact E|]. now rewrite E.
Qed.

Lemma lookups_none loc : Forall proper_name loc -> lookups (written loc) = [] <-> ~ present infolist loc.
Proof.
  intros H. unfold present, rar_lookups. destruct loc as [|x loc].
  - cbn [written strip lstrip]. change (str_eqb (strip slash (written []) ++ $"/") $"/") with true. cbn. split; [discriminate|]. intros N. exfalso. apply N. now left.
  - set (l := x :: loc) in *. assert (N : l <> []) by discriminate. rewrite as_dir by assumption.
    match goal with |- (if ?b then _ else _) = [] <-> _ => destruct b eqn:B end.
    + apply andb_true_iff in B as (_ & B). apply existsb_exists in B as ([k i] & I & B). apply files_keys in I as (name & I & R & ->).
      apply below_location in B as (n & rest & B); [|exact H|exact N|apply R]. split.
      * intros E. apply app_eq_nil in E as (_ & E). discriminate.
      * intros Z. exfalso. apply Z. right. now exists name, i, (n :: rest).
    + split.
      * intros E [Z|(name & i & rest & I & D)]; [congruence|]. destruct (entry_key name i I) as (j & J). destruct rest as [|n rest].
        -- rewrite app_nil_r in D. assert (K : In (key (denotes name) (is_folder_name name), j) (here l)).
           { apply filter_In. split; [exact J|]. now apply at_location. }
           destruct (here l); [now destruct K|discriminate].
        -- apply andb_false_iff in B as [B|B].
           ++ apply map_eq_nil in E. rewrite E in B. discriminate.
           ++ rewrite <- not_true_iff_false in B. apply B. apply existsb_exists. exists (key (denotes name) (is_folder_name name), j). split; [exact J|].
              apply below_location; [exact H|exact N|apply (rel name i I)|]. now exists n, rest.
      * intros Z. destruct (here l) as [|[k i] r] eqn:E; [reflexivity|]. exfalso. apply Z. right.
        destruct (here_spec l k i H) as (_ & name & I & D & _); [rewrite E; now left|]. exists name, i, []. now rewrite app_nil_r.
Qed.

Lemma lookup_first path : rar_lookup now uid gid files path 0 = Ok (nth_error (lookups path) 0).
Proof.
  unfold rar_lookup. destruct (lookups path) as [|i l]; [reflexivity|].
  replace (- len (i :: l) <=? 0)%Z with true by (symmetry; apply Z.leb_le; unfold len; cbn; lia).
  replace (0 <? len (i :: l))%Z with true by (symmetry; apply Z.ltb_lt; unfold len; cbn; lia). reflexivity.
Qed.

Lemma here_one loc i : Forall proper_name loc -> loc <> [] -> last_entry infolist loc i -> exists f, here loc = [(key loc f, i)].
Proof.
  intros H N (before & name & after & E & D & A & B).
  assert (Iname : In (name, i) infolist) by (rewrite E; apply in_or_app; right; now left).
  exists (is_folder_name name). pose proof (rel name i Iname) as R.
  assert (K : In (key loc (is_folder_name name), i) files).
  { rewrite <- D, <- clean_key by exact R. rewrite E. apply last_rar_files. rewrite Forall_forall in A. apply Forall_forall. intros [n' j] J Q. apply (A _ J). cbn [fst] in *.
    rewrite !clean_key in Q by (try exact R; apply (rel n' j); rewrite E; apply in_or_app; right; now right).
    apply key_inj in Q as (Q & _); [congruence|apply denotes_proper|apply denotes_proper| |apply R].
    apply (rel n' j). rewrite E. apply in_or_app. right. now right. }
  assert (U : forall k j, In (k, j) (here loc) -> k = key loc (is_folder_name name)).
  { intros k j J. destruct (here_spec loc k j H J) as (_ & n' & I' & D' & ->). f_equal.
    rewrite E in I'. apply in_app_or in I' as [I'|[I'|I']].
    - rewrite Forall_forall in B. specialize (B _ I' D'). cbn [fst] in B. rewrite <- !folder_name_spec in B.
      destruct (is_folder_name n'), (is_folder_name name); try reflexivity; exfalso; destruct B as (B1 & B2); [discriminate (B1 eq_refl)|discriminate (B2 eq_refl)].
    - now injection I' as <- _.
    - exfalso. rewrite Forall_forall in A. now apply (A _ I'). }
  assert (ND : NoDup (map fst (here loc))).
  { pose proof (nodup_rar_files infolist) as ND. revert ND. generalize files. clear. intros d. induction d as [|[k v] d IH]; cbn [filter map fst]; [constructor|].
    intros ND. inversion ND as [|? ? N1 N2]; subst. destruct (str_eqb (rstrip slash k) (lstrip slash (written loc))); [|now apply IH].
    cbn [map fst]. constructor; [|now apply IH]. intros I. apply N1. apply in_map_iff in I as (e & <- & I). apply filter_In in I as (I & _). now apply in_map. }
  assert (K' : In (key loc (is_folder_name name), i) (here loc)).
  { apply filter_In. split; [exact K|]. rewrite <- D. apply at_location; [apply denotes_proper|reflexivity]. }
  destruct (here loc) as [|[k1 i1] [|[k2 i2] r]]; [now destruct K'| |].
  - destruct K' as [K'|[]]. now rewrite K'.
  - exfalso. rewrite (U k1 i1 (or_introl eq_refl)), (U k2 i2 (or_intror (or_introl eq_refl))) in ND. cbn [map fst] in ND. inversion ND as [|? ? N1 _]. apply N1. now left.
Qed.

Lemma lookup_entry loc i : Forall proper_name loc -> loc <> [] -> last_entry infolist loc i ->
  exists p, rar_lookup now uid gid files (written loc) 0 = Ok (Some (rar_file_info uid gid p i)).
Proof.
  intros H N L. destruct (here_one loc i H N L) as (f & E). exists (key loc f). rewrite lookup_first. unfold rar_lookups. rewrite as_dir by assumption. rewrite E.
  match goal with |- Ok (nth_error (if ?b then _ else _) 0) = _ => destruct b end; reflexivity.
Qed.
End Archive.

(** ** Listed values *)
Lemma dget_last {V} (a b : list (str * V)) k v : ~ In k (map fst b) -> dget str_eqb (dict_of str_eqb (a ++ (k, v) :: b)) k = Some v.
Proof.
  induction b as [|[k' v'] b IH] using rev_ind; intros H.
  - rewrite (dget_dict_of_snoc str_eqb str_eqb_spec). now rewrite str_eqb_refl.
  - rewrite app_comm_cons, app_assoc, (dget_dict_of_snoc str_eqb str_eqb_spec). rewrite map_app in H. cbn [map fst] in H.
    destruct (str_eqb_spec k k') as [->|N]; [exfalso; apply H, in_or_app; right; now left|]. apply IH. intros I. apply H, in_or_app. now left.
Qed.
Lemma dict_of_nodup {V} (l : list (str * V)) : NoDup (map fst l) -> dict_of str_eqb l = l.
Proof.
  intros ND. induction l as [|[k v] l IH] using rev_ind; [reflexivity|]. rewrite map_app in ND. cbn [map fst] in ND.
  pose proof (NoDup_remove_1 _ _ _ ND) as N1. pose proof (NoDup_remove_2 _ _ _ ND) as N2. rewrite app_nil_r in N1, N2.
  unfold dict_of, dupdate. rewrite fold_left_app. cbn [fold_left]. change (fold_left (fun acc '(k, v) => dset str_eqb acc k v) l []) with (dict_of str_eqb l).
  rewrite (IH N1). clear -N2. induction l as [|[k' v'] l IH]; [reflexivity|]. cbn [dset app]. cbn [map fst] in N2.
  destruct (str_eqb_spec k k') as [->|N]; [exfalso; apply N2; now left|]. f_equal. apply IH. intros I. apply N2. now right.
Qed.
Lemma files_in_order l : Forall (fun e => relative (fst e)) l -> NoDup (map (fun e => denotes (fst e)) l) ->
  rar_files l = map (fun e => (clean_path (fst e), snd e)) l.
Proof.
  intros R ND. unfold rar_files. rewrite (map_ext (fun '(filename, info) => (clean_path filename, info)) (fun e => (clean_path (fst e), snd e))) by now intros [? ?].
  apply dict_of_nodup. rewrite map_map. cbn [fst]. induction l as [|e l IH]; cbn [map]; [constructor|]. inversion ND as [|? ? N1 N2]; subst.
  pose proof (Forall_inv R) as Re. pose proof (Forall_inv_tail R) as Rl. constructor; [|now apply IH]. intros I. apply N1. apply in_map_iff in I as (e' & E & I).
  apply in_map_iff. exists e'. split; [|exact I]. rewrite Forall_forall in Rl. pose proof (Rl e' I) as Re'.
  rewrite !clean_key in E by assumption. now apply key_inj in E as (E & _); try apply denotes_proper; [|apply Re'|apply Re].
Qed.
Lemma listed_value {V} (value : str -> rar_info -> V) before name i after loc n :
  let infolist := before ++ (name, i) :: after in
  Forall (fun e => relative (fst e)) infolist -> NoDup (map (fun e => denotes (fst e)) infolist) -> Forall proper_name loc ->
  denotes name = loc ++ [n] -> (forall name' j rest, In (name', j) after -> denotes name' <> loc ++ n :: rest) ->
  exists p, dget str_eqb (comprehend (rar_files infolist) (written loc) value) n = Some (value p i).
Proof.
  intros infolist R ND H D A. exists (clean_path name). unfold comprehend. rewrite files_in_order by assumption. unfold infolist. rewrite map_app, flat_map_app. cbn [map flat_map fst snd].
  assert (Rn : relative name) by (rewrite Forall_forall in R; apply (R (name, i)); apply in_or_app; right; now left).
  assert (G : get_name (folder_prefix (written loc)) (clean_path name) = Some n).
  { rewrite clean_key by exact Rn. apply get_name_key; [exact H|apply denotes_proper|apply Rn|]. now exists []. }
  rewrite G. pose proof (denotes_proper name) as P. rewrite D in P. apply Forall_app in P as (_ & P). apply Forall_inv in P. destruct P as (P & _).
  destruct n as [|c n]; [congruence|]. cbn [app]. apply dget_last. intros I. apply in_map_iff in I as ([m v] & E & I). cbn in E. subst m.
  apply in_flat_map in I as ([k j] & J & I). apply in_map_iff in J as ([name' j'] & E & J). injection E as <- <-. cbn [fst snd] in *.
  destruct (get_name (folder_prefix (written loc)) (clean_path name')) as [[|c' m]|] eqn:G'; try now destruct I. destruct I as [I|[]]. injection I as -> -> _.
  assert (R' : relative name') by (rewrite Forall_forall in R; apply (R (name', j')); apply in_or_app; right; now right).
  rewrite clean_key in G' by exact R'. apply get_name_key in G' as (rest & G'); [|exact H|apply denotes_proper|apply R']. now apply (A name' j' rest).
Qed.
