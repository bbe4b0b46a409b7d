(** C90: remote file systems as mount sources.  C91: mount sources as file systems for fsspec. *)
From Coq Require Import Ascii String.
From Verif Require Import PyBase PyDict PyStr FileInfo Path_Model Path_Spec Path_Proofs Hash_Proofs Git_Spec Git_Proofs
  Fsspec_Model Fsspec_Spec Fsspec_Proofs.
Local Open Scope Z_scope.

(** Example: a file system that serves a given tree, in either style. *)
Definition demo_locate (abs : bool) (p : str) : option (list str) :=
  match p, abs with
  | c :: r, true => if char_eqb c slash then Some (components r) else None
  | [], true => None
  | c :: r, false => if char_eqb c slash then None else Some (components p)
  | [], false => Some []
  end.
Definition demo_entry {A} (abs : bool) (loc : list str) (o : robj A) : entry :=
  match o with
  | RDir _ => mkEntry (render abs loc ++ $"/") true None 7 false
  | RFile d => mkEntry (render abs loc) false (Some (len d)) 7 false
  end.
Definition demo_at {A} (abs : bool) (tree : robj A) (p : str) : option (robj A) :=
  match demo_locate abs p with Some loc => remote_at tree loc | None => None end.
Definition demo {A} (abs : bool) (tree : robj A) : remote A :=
  mkRemote (fun p => match demo_at abs tree p with Some _ => true | None => false end)
           (fun p => match demo_at abs tree p with Some (RDir _) => true | _ => false end)
           (fun p => match demo_locate abs p, demo_at abs tree p with Some loc, Some o => Ok (demo_entry abs loc o) | _, _ => Err FileNotFound end)
           (fun p => match demo_locate abs p, demo_at abs tree p with
                     | Some loc, Some (RDir es) => Ok (mkEntry (render abs loc) true None 7 false :: map (fun no => demo_entry abs (loc ++ [fst no]) (snd no)) es)
                     | Some loc, Some o => Ok [demo_entry abs loc o]
                     | _, _ => Err FileNotFound end)
           (fun p => match demo_at abs tree p with Some (RFile d) => Ok d | _ => Err FileNotFound end).

Lemma components_join loc : Forall proper_name loc -> components (join $"/" loc) = loc.
Proof.
  intros H. pose proof (components_written loc H) as E. unfold written, components in *. rewrite split_cons_sep in E. exact E.
Qed.

Lemma demo_locate_render abs loc : Forall proper_name loc -> demo_locate abs (render abs loc) = Some loc.
Proof.
  intros H. destruct abs; cbn [render].
  - unfold written. cbn. now rewrite components_join.
  - pose proof (join_head loc H) as J. pose proof (components_join loc H) as C. destruct (join $"/" loc) as [|c r]; cbn.
    + f_equal. exact C.
    + destruct (char_eqb_spec c slash) as [->|]; [|now rewrite C]. exfalso. apply (lstrip_head _ _ _ _ J). reflexivity.
Qed.

Example demo_serves {A} abs (tree : robj A) : proper_remote tree -> serves (demo abs tree) abs tree.
Proof.
  intros Hp. constructor.
  - intros loc H. cbn [demo r_lexists]. unfold demo_at. rewrite demo_locate_render by assumption. destruct (remote_at tree loc); split; congruence.
  - intros loc es H E. cbn [demo r_isdir]. unfold demo_at. rewrite demo_locate_render, E by assumption. reflexivity.
  - intros loc o H N E. cbn [demo r_info]. unfold demo_at. rewrite demo_locate_render, E by assumption. eexists. split; [reflexivity|].
    destruct o; cbn [describes demo_entry e_name e_dir e_size]; [|now repeat split]. split; [|reflexivity].
    change ($"/") with (repeat slash 1) at 1. rewrite strip_slashes. now apply strip_render.
  - intros loc es H E. cbn [demo r_listdir]. unfold demo_at. rewrite demo_locate_render, E by assumption. eexists. split; [reflexivity|].
    cbn [filter e_name]. rewrite strip_render, str_eqb_refl by assumption. cbn [negb].
    pose proof (remote_at_proper loc tree _ Hp E) as He. inversion_clear He as [|? N P]. clear E N.
    induction es as [|[n o] es IH]; [constructor|]. cbn [map filter fst snd].
    assert (Pn : proper_name n) by (eapply P; now left).
    assert (Hn : Forall proper_name (loc ++ [n])) by (apply Forall_app; split; [assumption|now constructor]).
    assert (S : strip slash (e_name (demo_entry abs (loc ++ [n]) o)) = join $"/" (loc ++ [n])).
    { destruct o; cbn [demo_entry e_name]; [|now apply strip_render].
      change (render abs (loc ++ [n]) ++ $"/") with (render abs (loc ++ [n]) ++ repeat slash 1). rewrite strip_slashes. now apply strip_render. }
    rewrite S. assert (D : str_eqb (join $"/" (loc ++ [n])) (join $"/" loc) = false).
    { apply str_eqb_neq. intros C. destruct loc as [|x r] eqn:El; [change (n = []) in C; destruct Pn; congruence|]. rewrite <- El in *.
      rewrite join_snoc in C by congruence. apply (f_equal (@length _)) in C. rewrite app_length in C. cbn in C. lia. }
    rewrite D. cbn [negb]. constructor; [|apply IH; intros; eapply P; now right].
    cbn [fst snd]. destruct o; cbn [describes demo_entry e_name e_dir e_size] in *; [split; [exact S|reflexivity]|now repeat split].
  - intros loc d H E. cbn [demo r_open]. unfold demo_at. rewrite demo_locate_render, E by assumption. reflexivity.
  - intros loc H. split; intros ->; cbn [demo r_lexists]; unfold demo_at; [reflexivity|]. intros _.
    pose proof (join_head loc H) as J. destruct (join $"/" loc) as [|c r]; [reflexivity|]. cbn.
    destruct (char_eqb_spec c slash) as [->|]; [|reflexivity]. exfalso. apply (lstrip_head _ _ _ _ J). reflexivity.
Qed.

Definition ex_remote : robj nat :=
  RDir [($"docs", RDir [($"a.txt", RFile [1; 2]%nat); ($"deep", RDir [($"b", RFile [])])]); ($"top", RFile [9]%nat)].
Example ex_remote_proper : proper_remote ex_remote.
Proof.
  Ltac pn := split; [discriminate|]; split; [discriminate|]; split; [discriminate|]; cbn; intuition discriminate.
  Ltac pt := constructor; [repeat constructor; cbn; intuition discriminate|];
    intros ? ? H; cbn in H; repeat destruct H as [[= <- <-]|H]; try destruct H; (split; [pn|]).
  pt; [pt; [constructor|pt; constructor]|constructor].
Qed.

(** Files and folders of the remote are found below the prefix, with kind and size, and files read as their contents. *)
Theorem C90_lookup :
  forall (A : Type) quote now uid gid (fs : remote A) abs tree github prefix pre loc o,
    serves fs abs tree -> (github = true -> abs = false) -> names_prefix fs abs tree prefix pre ->
    Forall proper_name pre -> Forall proper_name loc -> pre ++ loc <> [] -> remote_at tree (pre ++ loc) = Some o ->
    let s := fsspec_init fs false false github prefix in
    exists i, fsspec_lookup quote now uid gid s (written loc) = Ok (Some i) /\ fsspec_exists quote s (written loc) = true /\
      fi_mode i = remote_mode o /\ fi_linkname i = [] /\ fi_uid i = uid /\ fi_gid i = gid /\
      (forall d, o = RFile d -> fi_size i = len d /\ fsspec_open s i = Ok d).
Proof.
  intros A quote now uid gid fs abs tree github prefix pre loc o Sv G P Hp Hl N Ho s.
  assert (Hpl : Forall proper_name (pre ++ loc)) by (now apply Forall_app).
  assert (Eg : get_path quote s (written loc) = render abs (pre ++ loc)) by (eapply get_path_found; eassumption).
  assert (Ex : r_lexists fs (render abs (pre ++ loc)) = true) by (apply (sv_exists _ _ _ Sv); [assumption|congruence]).
  destruct (sv_info _ _ _ Sv (pre ++ loc) o Hpl N Ho) as (e & Ee & De).
  exists (convert uid gid e (render abs (pre ++ loc))). unfold fsspec_lookup, fsspec_exists. rewrite Eg. change (s_http s) with false. change (s_fs s) with fs. cbv iota.
  rewrite (render_special abs _ Hpl). destruct (pre ++ loc) as [|x r] eqn:Epl; [congruence|]. rewrite <- Epl in *. rewrite Ex, Ee. cbn [negb].
  split; [reflexivity|]. split; [reflexivity|]. unfold convert. cbn [fi_mode fi_linkname fi_uid fi_gid fi_size].
  split; [|split; [reflexivity|split; [reflexivity|split; [reflexivity|]]]].
  - unfold entry_mode. destruct o; cbn in De; [destruct De as (_ & ->)|destruct De as (_ & -> & _)]; reflexivity.
  - intros d ->. cbn in De. destruct De as (_ & _ & ->). split; [reflexivity|]. unfold fsspec_open. cbn [fi_userdata rev app]. change (s_fs s) with fs.
    apply (sv_open _ _ _ Sv); assumption.
Qed.
Print Assumptions C90_lookup.

(** The root of the file system is a folder. *)
Theorem C90_root :
  forall (A : Type) quote now uid gid (fs : remote A) abs es github prefix,
    serves fs abs (RDir es) -> (github = true -> abs = false) -> names_prefix fs abs (RDir es) prefix [] ->
    exists i, fsspec_lookup quote now uid gid (fsspec_init fs false false github prefix) $"/" = Ok (Some i) /\ is_dir_mode (fi_mode i) = true.
Proof.
  intros A quote now uid gid fs abs es github prefix Sv G P.
  pose proof (get_path_found quote fs abs (RDir es) github prefix [] [] (RDir es) Sv G P (Forall_nil _) (Forall_nil _) eq_refl) as E.
  change (written []) with ($"/") in E. exists (root_info now uid gid [$"/"]). unfold fsspec_lookup. rewrite E. cbn [s_http fsspec_init app].
  split; [destruct abs; reflexivity|reflexivity].
Qed.
Print Assumptions C90_root.

(** What the remote does not have is not found. *)
Theorem C90_missing :
  forall (A : Type) quote now uid gid (fs : remote A) abs tree github prefix pre loc,
    serves fs abs tree -> (github = true -> abs = false) -> names_prefix fs abs tree prefix pre ->
    Forall proper_name pre -> Forall proper_name loc -> remote_at tree (pre ++ loc) = None ->
    let s := fsspec_init fs false false github prefix in
    fsspec_lookup quote now uid gid s (written loc) = Ok None /\ fsspec_exists quote s (written loc) = false.
Proof.
  intros A quote now uid gid fs abs tree github prefix pre loc Sv G P Hp Hl Ho s.
  assert (Hpl : Forall proper_name (pre ++ loc)) by (now apply Forall_app).
  assert (N : pre ++ loc <> []) by (intros E; rewrite E in Ho; discriminate).
  assert (B : exists b, get_path quote s (written loc) = render b (pre ++ loc) /\ r_lexists fs (render b (pre ++ loc)) = false).
  { destruct (get_path_cases quote fs abs tree github prefix pre loc Sv G P Hp Hl) as [E|(_ & X & E)].
    - exists abs. split; [exact E|]. destruct (r_lexists fs (render abs (pre ++ loc))) eqn:X; [|reflexivity].
      apply (sv_exists _ _ _ Sv) in X; [congruence|assumption].
    - exists true. split; [exact E|]. rewrite E in X. exact X. }
  destruct B as (b & E & X). unfold fsspec_lookup, fsspec_exists. rewrite E. change (s_http s) with false. change (s_fs s) with fs. cbv iota.
  rewrite (render_special b _ Hpl), X. destruct (pre ++ loc); [congruence|]. now split.
Qed.
Print Assumptions C90_missing.

(** Folders list exactly their entries, with kind and size; the files listed read as their contents. *)
Theorem C90_list :
  forall (A : Type) quote unquote uid gid (fs : remote A) abs tree github prefix pre loc es,
    serves fs abs tree -> proper_remote tree -> (github = true -> abs = false) -> names_prefix fs abs tree prefix pre ->
    Forall proper_name pre -> Forall proper_name loc -> remote_at tree (pre ++ loc) = Some (RDir es) ->
    let s := fsspec_init fs false false github prefix in
    fsspec_list_mode quote unquote s (written loc) = Ok (map (fun no => (fst no, remote_mode (snd no))) es) /\
    exists l, fsspec_list quote unquote uid gid s (written loc) = Ok l /\ map fst l = map fst es /\
      forall name i, In (name, i) l -> exists o, In (name, o) es /\ fi_mode i = remote_mode o /\
        (forall d, o = RFile d -> fi_size i = len d /\ fsspec_open s i = Ok d).
Proof.
  intros A quote unquote uid gid fs abs tree github prefix pre loc es Sv Ht G P Hp Hl Ho s.
  assert (Hpl : Forall proper_name (pre ++ loc)) by (now apply Forall_app).
  assert (Eg : get_path quote s (written loc) = render abs (pre ++ loc)) by (eapply get_path_found; eassumption).
  destruct (sv_list _ _ _ Sv (pre ++ loc) es Hpl Ho) as (l & El & F).
  pose proof (remote_at_proper _ _ _ Ht Ho) as He. inversion_clear He as [|? Nd Pn].
  assert (Pn' : forall n o, In (n, o) es -> proper_name n) by (intros n o H; apply (Pn n o H)).
  assert (M : forall e (no : str * robj A), describes abs e ((pre ++ loc) ++ [fst no]) (snd no) -> entry_mode e = remote_mode (snd no)).
  { intros e [n o] D. unfold entry_mode. destruct o; cbn in D; [destruct D as (_ & ->)|destruct D as (_ & -> & _)]; reflexivity. }
  split.
  - unfold fsspec_list_mode, fsspec_list_with. rewrite Eg. change (s_http s) with false. change (s_fs s) with fs. cbv iota. rewrite El, lstrip_render by assumption.
    destruct (list_dict entry_mode abs (pre ++ loc) l es Hpl Nd Pn' F) as (ents & F2 & ->). f_equal.
    clear -F2 M. induction F2 as [|e no ents es H1 H2 IH]; [reflexivity|]. cbn [combine map fst snd]. rewrite IH, (M _ _ H1). reflexivity.
  - unfold fsspec_list, fsspec_list_with. rewrite Eg. change (s_http s) with false. change (s_fs s) with fs. cbv iota. rewrite El, lstrip_render by assumption.
    destruct (list_dict (fun e => convert uid gid e (e_name e)) abs (pre ++ loc) l es Hpl Nd Pn' F) as (ents & F2 & ->).
    eexists. split; [reflexivity|]. split.
    + clear -F2. induction F2 as [|e no ents es H1 H2 IH]; [reflexivity|]. cbn [combine map fst snd]. now rewrite IH.
    + intros name i Hi. apply in_map_iff in Hi as ([e [n o]] & [= <- <-] & Hc). exists o.
      pose proof (in_combine_r _ _ _ _ Hc) as Hes. split; [assumption|].
      assert (D : describes abs e ((pre ++ loc) ++ [n]) o).
      { clear -F2 Hc. induction F2 as [|e' no' ents es H1 H2 IH]; [destruct Hc|]. cbn in Hc. destruct Hc as [[= -> ->]|Hc]; [exact H1|auto]. }
      cbn [fst snd]. split; [exact (M e (n, o) D)|]. intros d ->. cbn in D. destruct D as (D1 & D2 & D3). unfold convert. cbn [fi_size]. rewrite D3.
      split; [reflexivity|]. unfold fsspec_open. cbn [fi_userdata rev app]. change (s_fs s) with fs. rewrite D1.
      apply (sv_open _ _ _ Sv); [apply Forall_app; split; [assumption|constructor; [eapply Pn', Hes|constructor]]|].
      rewrite remote_at_app, Ho. cbn. now rewrite (find_child es n (RFile d) Nd Hes).
Qed.
Print Assumptions C90_list.

Example C90_ex :
  let s := fsspec_init (demo false ex_remote) false false false (Some $"docs/") in
  names_prefix (demo false ex_remote) false ex_remote (Some $"docs/") [$"docs"] /\
  map fst (match fsspec_list (fun x => x) (fun x => x) 1 2 s $"/" with Ok l => l | Err _ => [] end) = [$"a.txt"; $"deep"] /\
  fsspec_lookup (fun x => x) 0 1 2 s $"/a.txt" = Ok (Some (mkInfo 2 7 (32768 + 365) [] 1 2 [$"docs/a.txt"])).
Proof.
  split; [right|split; reflexivity]. split; [discriminate|]. exists 1%nat. eexists. split; [reflexivity|]. split; reflexivity.
Qed.

(** Listing a file gives an empty folder: fsspec lists a file as itself. *)
Theorem C90_list_file_refuted :
  ~ (forall (A : Type) quote unquote uid gid (fs : remote A) abs tree loc d l,
       serves fs abs tree -> Forall proper_name loc -> remote_at tree loc = Some (RFile d) ->
       fsspec_list quote unquote uid gid (fsspec_init fs false false false None) (written loc) <> Ok l).
Proof.
  intros H. apply (H nat (fun x => x) (fun x => x) 1 2 (demo true ex_remote) true ex_remote [$"top"] [9]%nat []).
  - apply demo_serves, ex_remote_proper.
  - repeat constructor; try discriminate. cbn. intuition discriminate.
  - reflexivity.
  - reflexivity.
Qed.
Print Assumptions C90_list_file_refuted.

(** Missing files have a version. *)
Theorem C90_versions_refuted :
  ~ (forall (A : Type) quote now uid gid (s : source A) path, fsspec_lookup quote now uid gid s path = Ok None -> fsspec_versions s path = 0).
Proof. intros H. discriminate (H nat (fun x => x) 0 1 2 (fsspec_init (demo true ex_remote) false false false None) $"/none"). reflexivity. Qed.
Print Assumptions C90_versions_refuted.

(** * Web servers *)

(** A toy quoting: blanks, percent signs and the special characters become percent and a letter. *)
Definition toy_code (c : ascii) : option ascii :=
  if char_eqb c " " then Some "a"%char else if char_eqb c "%" then Some "b"%char else if char_eqb c "?" then Some "c"%char
  else if char_eqb c "#" then Some "d"%char else None.
Definition toy_char (c : ascii) : str := match toy_code c with Some x => ["%"%char; x] | None => [c] end.
Definition toy_quote (s : str) : str := flat_map toy_char s.
Definition toy_back (x : ascii) : ascii :=
  if char_eqb x "a" then " "%char else if char_eqb x "b" then "%"%char else if char_eqb x "c" then "?"%char else "#"%char.
Fixpoint toy_unquote (s : str) : str :=
  match s with
  | c :: (x :: r) as t => if char_eqb c "%" then toy_back x :: toy_unquote r else c :: toy_unquote t
  | _ => s
  end.

Lemma toy_char_cases c :
  (exists x, toy_code c = Some x /\ toy_back x = c /\ x <> "/"%char /\ x <> "?"%char /\ x <> "#"%char) \/
  (toy_code c = None /\ c <> "%"%char /\ c <> "?"%char /\ c <> "#"%char).
Proof.
  unfold toy_code. destruct (char_eqb_spec c " ") as [->|?]; [left; eexists; repeat split; discriminate|].
  destruct (char_eqb_spec c "%") as [->|?]; [left; eexists; repeat split; discriminate|].
  destruct (char_eqb_spec c "?") as [->|?]; [left; eexists; repeat split; discriminate|].
  destruct (char_eqb_spec c "#") as [->|?]; [left; eexists; repeat split; discriminate|]. right. auto.
Qed.

Lemma toy_inverse s : toy_unquote (toy_quote s) = s.
Proof.
  induction s as [|c s IH]; [reflexivity|]. change (toy_quote (c :: s)) with (toy_char c ++ toy_quote s). unfold toy_char.
  destruct (toy_char_cases c) as [(x & -> & Hx & _)|(-> & Hc & _)]; cbn [app].
  - change (toy_back x :: toy_unquote (toy_quote s) = c :: s). now rewrite IH, Hx.
  - destruct (toy_quote s) as [|y t] eqn:E.
    + destruct s; [reflexivity|]. cbn in IH. congruence.
    + change ((if char_eqb c "%" then toy_back y :: toy_unquote t else c :: toy_unquote (y :: t)) = c :: s).
      destruct (char_eqb_spec c "%"); [congruence|]. now rewrite IH.
Qed.

Lemma toy_In s c : In c (toy_quote s) -> c <> "?"%char /\ c <> "#"%char /\ (c = slash -> In slash s).
Proof.
  intros H. apply in_flat_map in H as (a & Ha & Hc). unfold toy_char in Hc.
  destruct (toy_char_cases a) as [(x & E & _ & H1 & H2 & H3)|(E & H1 & H2 & H3)]; rewrite E in Hc.
  - destruct Hc as [<-|[<-|[]]]; repeat split; try discriminate; try assumption. intros C. now destruct H1.
  - destruct Hc as [<-|[]]. repeat split; try assumption. now intros ->.
Qed.

Example toy_quoting : proper_quoting toy_quote toy_unquote.
Proof.
  constructor.
  - intros loc. unfold written. change (toy_quote (slash :: join $"/" loc)) with (slash :: toy_quote (join $"/" loc)). f_equal.
    induction loc as [|n [|m loc] IH]; [reflexivity|reflexivity|]. cbn [map] in *. rewrite !join_cons.
    unfold toy_quote in *. rewrite !flat_map_app, IH. reflexivity.
  - apply toy_inverse.
  - intros n (H1 & H2 & H3 & H4). split; [|split; intros C; apply toy_In in C as (C1 & C2 & _); congruence].
    assert (I : forall m, toy_unquote m = m -> toy_quote n = m -> n = m) by (intros m Hm Hq; rewrite <- (toy_inverse n), Hq; exact Hm).
    split; [intros C; apply H1; now apply (I [])|]. split; [intros C; apply H2; now apply (I $".")|]. split; [intros C; apply H3; now apply (I $"..")|].
    intros C. apply toy_In in C as (_ & _ & C). auto.
Qed.

(** Folders on web servers list exactly the files and folders their page links to, under their names, once each. *)
Theorem C90_http_list :
  forall (A : Type) quote unquote uid gid (fs : remote A) base k loc links names,
    proper_quoting quote unquote -> base <> [] -> strip slash base = base -> r_isdir fs (base ++ repeat slash k) = true ->
    Forall proper_name loc -> Forall proper_name names ->
    r_listdir fs (url_of quote base loc) = Ok links ->
    Forall (page_link quote (url_of quote base loc) names) links ->
    (forall n, In n names -> exists e j, In e links /\ e_name e = url_of quote base loc ++ slash :: quote n ++ repeat slash j) ->
    let s := fsspec_init fs true false false (Some (base ++ repeat slash k)) in
    exists l, fsspec_list quote unquote uid gid s (written loc) = Ok l /\ NoDup (map fst l) /\
      (forall n, In n (map fst l) <-> In n names) /\
      (forall n i, In (n, i) l -> exists e j, In e links /\ e_name e = url_of quote base loc ++ slash :: quote n ++ repeat slash j /\
         fi_mode i = (if e_dir e then 16384 + 365 else 32768 + 365) /\ fi_size i = (match e_size e with Some z => z | None => 0 end) /\
         fsspec_open s i = r_open fs (e_name e)).
Proof.
  intros A quote unquote uid gid fs base k loc links names Q Hb Hsb Hd Hl Hn Hlist Hlinks Hall s. set (url := url_of quote base loc) in *.
  destruct (url_strip quote unquote Q base loc Hb Hsb Hl) as [Un Us]. fold url in Un, Us.
  destruct (strip_base url Un Us) as [Ul _].
  unfold fsspec_list, fsspec_list_with. pose proof (http_path quote unquote Q fs base k loc Hb Hsb Hl Hd) as E0. fold s url in E0. rewrite E0.
  change (s_fs s) with fs. change (s_http s) with true. rewrite Hlist, Ul. cbv iota zeta.
  set (f := fun e => convert uid gid e (e_name e)).
  set (d := dict_of str_eqb (map (fun e => (entry_key url (e_name e), f e)) links)).
  set (p := fun nv : str * finfo str => negb (starts_with $"?" (fst nv) || starts_with $"#" (fst nv))).
  assert (Kc : forall n j, In n names -> entry_key url (url ++ slash :: quote n ++ repeat slash j) = quote n).
  { intros n j Hi. rewrite Forall_forall in Hn. destruct (pq_name _ _ Q n (Hn n Hi)) as (Hp & _).
    rewrite entry_key_url; try assumption; rewrite strip_slashes, strip_name by assumption; [reflexivity|apply Hp]. }
  assert (Kh : forall c t, c <> slash -> exists t', entry_key url (url ++ slash :: c :: t) = c :: t').
  { intros c t Hc. destruct (strip_head c t Hc) as [t' E]. exists t'. rewrite entry_key_url; try assumption. now rewrite E. }
  assert (Pn : forall n, In n names -> p (quote n, convert uid gid (mkEntry [] true None 0 false) []) = true).
  { intros n Hi. rewrite Forall_forall in Hn. destruct (pq_name _ _ Q n (Hn n Hi)) as (_ & H1 & H2). unfold p. cbn [fst].
    apply negb_true_iff, orb_false_iff. split; (destruct (starts_with _ (quote n)) eqn:E; [|reflexivity]; exfalso);
      apply starts_with_spec in E as [t E]; rewrite E in *; [apply H1|apply H2]; now left. }
  assert (Dn : NoDup (dkeys (ddel str_eqb d []))) by (apply (NoDup_ddel str_eqb str_eqb_spec), NoDup_dict_of).
  (** what survives the filter *)
  assert (F : forall x i, In (x, i) (filter p (ddel str_eqb d [])) <->
     In (x, i) d /\ exists n, In n names /\ x = quote n).
  { intros x i. rewrite filter_In, In_ddel by apply NoDup_dict_of. split.
    - intros ((H1 & H2) & H3). split; [assumption|]. apply In_dict_of in H1. apply in_map_iff in H1 as (e & [= <- <-] & He).
      rewrite Forall_forall in Hlinks. destruct (Hlinks e He) as [n j Hi E|t E|t E]; rewrite E in *.
      + exists n. split; [assumption|]. now apply Kc.
      + exfalso. destruct (Kh "?"%char t) as [t' E']; [discriminate|]. unfold p in H3. cbn [fst] in H3. rewrite E' in H3. discriminate H3.
      + exfalso. destruct (Kh "#"%char t) as [t' E']; [discriminate|]. unfold p in H3. cbn [fst] in H3. rewrite E' in H3. discriminate H3.
    - intros (H1 & n & Hi & ->). split; [split; [assumption|]|].
      + rewrite Forall_forall in Hn. destruct (pq_name _ _ Q n (Hn n Hi)) as (Hp & _). apply Hp.
      + exact (Pn n Hi). }
  set (g := fun nv : str * finfo str => (unquote (fst nv), snd nv)).
  assert (Nd : NoDup (map fst (map g (filter p (ddel str_eqb d []))))).
  { rewrite map_map. assert (H : forall l, NoDup (dkeys l) -> (forall x i, In (x, i) l -> exists n, In n names /\ x = quote n) -> NoDup (map (fun x : str * finfo str => fst (g x)) l)).
    { induction l as [|[x i] l IH]; intros N H; [constructor|]. cbn [map dkeys fst g] in *. inversion_clear N as [|? ? H1 H2]. constructor.
      - intros C. apply in_map_iff in C as ([y j] & E & C). cbn [fst g] in E.
        destruct (H x i (or_introl eq_refl)) as (n & _ & ->). destruct (H y j (or_intror C)) as (m & _ & ->).
        rewrite !(pq_inverse _ _ Q) in E. subst m. apply H1. apply in_map_iff. now exists (quote n, j).
      - apply IH; [assumption|]. intros y j Hy. apply (H y j). now right. }
    apply H.
    - unfold dkeys in *. revert Dn. generalize (ddel str_eqb d []). clear. intros l. induction l as [|a l IH]; intros N; [constructor|]. cbn in N.
      inversion_clear N as [|? ? H1 H2]. cbn [filter]. destruct (p a); [|now apply IH]. cbn. constructor; [|now apply IH].
      intros C. apply H1. apply in_map_iff in C as (b & <- & C). apply filter_In in C as [C _]. now apply in_map.
    - intros x i Hi. now apply F in Hi as (_ & Hi). }
  rewrite dict_of_distinct by exact Nd. eexists. split; [reflexivity|]. split; [exact Nd|].
  assert (L : forall n i, In (n, i) (map g (filter p (ddel str_eqb d []))) <-> In n names /\ In (quote n, i) d).
  { intros n i. rewrite in_map_iff. split.
    - intros ([x j] & [= <- <-] & H). apply F in H as (H1 & m & Hm & ->). cbn [fst snd]. rewrite (pq_inverse _ _ Q). now split.
    - intros (H1 & H2). exists (quote n, i). split; [unfold g; cbn; now rewrite (pq_inverse _ _ Q)|]. apply F. split; [assumption|]. now exists n. }
  split.
  - intros n. rewrite in_map_iff. split.
    + intros ([m i] & <- & H). now apply L in H as [H _].
    + intros Hi. destruct (Hall n Hi) as (e & j & He & E).
      assert (K : In (quote n) (dkeys d)).
      { apply keys_dict_of. rewrite map_map. apply in_map_iff. exists e. cbn [fst]. split; [rewrite E; now apply Kc|assumption]. }
      unfold dkeys in K. apply in_map_iff in K as ([x i] & Ex & K). cbn in Ex. subst x. exists (n, i). split; [reflexivity|]. apply L. now split.
  - intros n i H. apply L in H as [Hi H]. apply In_dict_of in H. apply in_map_iff in H as (e & E & He). injection E as E1 E2.
    rewrite Forall_forall in Hlinks. destruct (Hlinks e He) as [m j Hm E|t E|t E].
    + exists e, j. split; [assumption|]. assert (m = n).
      { rewrite E, Kc in E1 by assumption. rewrite <- (pq_inverse _ _ Q m), <- (pq_inverse _ _ Q n). now f_equal. }
      subst m. split; [assumption|]. subst i. unfold f, convert. cbn [fi_mode fi_size]. split; [unfold entry_mode; now destruct (e_dir e)|]. split; reflexivity.
    + exfalso. destruct (Kh "?"%char t) as [t' E']; [discriminate|]. rewrite E, E' in E1.
      rewrite Forall_forall in Hn. destruct (pq_name _ _ Q n (Hn n Hi)) as (_ & C & _). apply C. rewrite <- E1. now left.
    + exfalso. destruct (Kh "#"%char t) as [t' E']; [discriminate|]. rewrite E, E' in E1.
      rewrite Forall_forall in Hn. destruct (pq_name _ _ Q n (Hn n Hi)) as (_ & _ & C). apply C. rewrite <- E1. now left.
Qed.
Print Assumptions C90_http_list.

(** A page with two files, one linked twice, a folder and a link for sorting. *)
Definition ex_web : remote nat :=
  mkRemote (fun _ => true) (fun p => ends_with $"/" p) (fun p => Ok (mkEntry p false (Some 3) 0 (ends_with $"/" p)))
    (fun p => if str_eqb p $"http://h/d%adir"
              then Ok [mkEntry $"http://h/d%adir/?S=D" false None 0 false; mkEntry $"http://h/d%adir/a%ab" false None 0 false;
                       mkEntry $"http://h/d%adir/sub/" true None 0 false; mkEntry $"http://h/d%adir/a%ab" false (Some 5) 0 false]
              else Err FileNotFound)
    (fun p => Ok [1; 2; 3]%nat).
Example C90_http_list_ex :
  map fst (match fsspec_list toy_quote toy_unquote 1 2 (fsspec_init ex_web true false false (Some $"http://h/")) $"/d dir" with Ok l => l | Err _ => [] end)
  = [$"a b"; $"sub"].
Proof. reflexivity. Qed.

Example C90_http_list_hyps :
  let links := match r_listdir ex_web $"http://h/d%adir" with Ok l => l | Err _ => [] end in
  url_of toy_quote $"http://h" [$"d dir"] = $"http://h/d%adir" /\ strip slash $"http://h" = $"http://h" /\ r_isdir ex_web ($"http://h" ++ repeat slash 1) = true /\
  Forall (page_link toy_quote $"http://h/d%adir" [$"a b"; $"sub"]) links /\ length links = 4%nat.
Proof.
  cbv zeta. split; [reflexivity|]. split; [reflexivity|]. split; [reflexivity|]. split; [|reflexivity].
  constructor; [eapply link_sort; reflexivity|]. constructor; [apply (link_child _ _ _ _ $"a b" 0); [now left|reflexivity]|].
  constructor; [apply (link_child _ _ _ _ $"sub" 1); [right; now left|reflexivity]|].
  constructor; [apply (link_child _ _ _ _ $"a b" 0); [now left|reflexivity]|]. constructor.
Qed.

(** Lookups on web servers ask for the quoted URL; pages that list as folders are folders. *)
Theorem C90_http_lookup :
  forall (A : Type) quote unquote now uid gid (fs : remote A) base k loc,
    proper_quoting quote unquote -> base <> [] -> strip slash base = base -> r_isdir fs (base ++ repeat slash k) = true -> Forall proper_name loc ->
    let url := url_of quote base loc in
    let s := fsspec_init fs true false false (Some (base ++ repeat slash k)) in
    (r_lexists fs url = false -> fsspec_lookup quote now uid gid s (written loc) = Ok None) /\
    (forall e, r_lexists fs url = true -> r_info fs url = Ok e ->
       exists i, fsspec_lookup quote now uid gid s (written loc) = Ok (Some i) /\ fsspec_open s i = r_open fs url /\
         (e_html e = true /\ r_isdir fs url = true -> fi_mode i = 16384 + 365 /\ fi_size i = 0) /\
         (e_html e = false \/ r_isdir fs url = false -> fi_size i = (match e_size e with Some z => z | None => 0 end) /\
            fi_mode i = (if e_dir e then 16384 + 365 else 32768 + 365))).
Proof.
  intros A quote unquote now uid gid fs base k loc Q Hb Hsb Hd Hl url s. unfold fsspec_lookup.
  pose proof (http_path quote unquote Q fs base k loc Hb Hsb Hl Hd) as E. fold s in E. rewrite E. fold url.
  change (s_fs s) with fs. change (s_http s) with true. cbv iota zeta. split; [now intros ->|]. intros e -> ->. cbn [negb].
  destruct (e_html e), (r_isdir fs url); cbn [andb]; eexists; (split; [reflexivity|]); (split; [reflexivity|]);
    (split; [intros [? ?]; try discriminate; now split|]); intros [?|?]; try discriminate;
    unfold convert; cbn [fi_size fi_mode]; (split; [reflexivity|]); unfold entry_mode; now destruct (e_dir e).
Qed.
Print Assumptions C90_http_lookup.

Example C90_http_lookup_ex :
  fsspec_lookup toy_quote 0 1 2 (fsspec_init ex_web true false false (Some $"http://h/")) $"/d dir/a b"
  = Ok (Some (mkInfo 3 0 (32768 + 365) [] 1 2 [$"http://h/d%adir/a%ab"])).
Proof. reflexivity. Qed.

(** * C91: mount sources for fsspec *)

(** Paths without protocol: info and open show and read what the mount source has. *)
Theorem C91_info_open :
  forall (A U : Type) protocol (m : msource A U) path,
    starts_with (protocol ++ $"://") path = false ->
    match m_lookup m path with
    | None => ms_info protocol m path = Err FileNotFound /\ ms_open protocol m path $"rb" = Err FileNotFound
    | Some i => ms_info protocol m path = Ok (mkDetail (Z.land (fi_mode i) 61440 =? 16384) path (fi_mode i) (fi_size i)) /\
                ms_open protocol m path $"rb" = m_open m i
    end.
Proof.
  intros A U protocol m path H. unfold ms_info, ms_open, strip_protocol. rewrite H. cbn [negb].
  change (str_eqb $"rb" $"rb") with true. cbn [negb]. destruct (m_lookup m path); split; reflexivity.
Qed.
Print Assumptions C91_info_open.

(** Nothing can be opened for writing. *)
Theorem C91_read_only :
  forall (A U : Type) protocol (m : msource A U) path mode, mode <> $"rb" -> ms_open protocol m path mode = Err ValueError.
Proof. intros A U protocol m path mode H. unfold ms_open. apply str_eqb_neq in H. now rewrite H. Qed.
Print Assumptions C91_read_only.

(** Listings of folders of sources that list dictionaries have the full paths of the entries, and agree with [info]. *)
Theorem C91_ls_partial :
  forall (A U : Type) protocol (m : msource A U) path d dm,
    path <> [] -> starts_with (protocol ++ $"://") path = false ->
    m_list m path = Dict d -> m_list_mode m path = Dict dm -> map fst dm = map fst d ->
    (forall name i, In (name, i) d -> m_lookup m (rstrip slash path ++ slash :: name) = Some i) ->
    (forall name, In name (map fst d) -> starts_with (protocol ++ $"://") (rstrip slash path ++ slash :: name) = false) ->
    exists l, ls_detail protocol m path = Ok l /\
      map d_name l = map (fun n => rstrip slash path ++ slash :: n) (map fst d) /\
      ls_names protocol m path = Ok (map (fun n => rstrip slash path ++ slash :: n) (map fst d)) /\
      forall e, In e l -> ms_info protocol m (d_name e) = Ok e.
Proof.
  intros A U protocol m path d dm Hn Hp Hl Hm Hk Ha Hs. unfold ls_detail, ls_names, strip_protocol. rewrite Hp, Hl, Hm.
  assert (PP : forall n, prefix_path path n = rstrip slash path ++ slash :: n) by (destruct path; [congruence|reflexivity]).
  eexists. split; [reflexivity|]. split; [|split].
  - clear -PP. induction d as [|[n i] d IH]; [reflexivity|]. cbn [map flat_map fst snd app]. cbn [to_detail d_name]. now rewrite IH, PP.
  - rewrite <- Hk. f_equal. rewrite map_map. apply map_ext. intros [n v]. apply PP.
  - intros e He. apply in_flat_map in He as ([n oi] & H1 & H2). apply in_map_iff in H1 as ([n' i] & [= <- <-] & H1). cbn [fst snd] in *.
    destruct H2 as [<-|[]]. cbn [to_detail d_name]. rewrite PP. unfold ms_info, strip_protocol.
    rewrite (Hs n') by (apply in_map_iff; now exists (n', i)). now rewrite (Ha n' i H1).
Qed.
Print Assumptions C91_ls_partial.

(** A mount source with a folder and a file in it, once with dictionaries, once with names. *)
Definition ex_ms (names : bool) : msource nat unit :=
  let file := mkInfo 3 0 33060 [] 0 0 [tt] in let dir := mkInfo 0 0 16749 [] 0 0 [tt] in
  mkMS (fun p => if str_eqb p $"/" then (if names then Names [$"d"] else Dict [($"d", dir)])
                 else if str_eqb p $"/d" then (if names then Names [$"f"] else Dict [($"f", file)]) else NoListing)
       (fun p => if str_eqb p $"/" then Dict [($"d", 16749)] else if str_eqb p $"/d" then Dict [($"f", 33060)] else NoListing)
       (fun p => if str_eqb p $"/d" then Some dir else if str_eqb p $"/d/f" then Some file else None)
       (fun i => Ok [1; 2; 3]%nat).
Example C91_ls_ex : ls_detail $"ratar" (ex_ms false) $"/d" = Ok [mkDetail false $"/d/f" 33060 3].
Proof. reflexivity. Qed.

(** Sources that list names: the entries are looked up by name alone, so they are missing. *)
Theorem C91_ls_refuted :
  ~ (forall (A U : Type) protocol (m : msource A U) path names l,
       path <> [] -> starts_with (protocol ++ $"://") path = false -> m_list m path = Names names ->
       (forall n, In n names -> m_lookup m (rstrip slash path ++ slash :: n) <> None) ->
       ls_detail protocol m path = Ok l -> map d_name l = map (fun n => rstrip slash path ++ slash :: n) names).
Proof.
  intros H. specialize (H nat unit $"ratar" (ex_ms true) $"/d" [$"f"] []). discriminate H; try discriminate; try reflexivity.
  intros n [<-|[]]. discriminate.
Qed.
Print Assumptions C91_ls_refuted.

(** Paths with the protocol are cut down to one character. *)
Theorem C91_protocol_refuted :
  ~ (forall (A U : Type) protocol (m : msource A U) path, ms_info protocol m (protocol ++ $"://" ++ path) = Err FileNotFound -> m_lookup m path = None).
Proof. intros H. discriminate (H nat unit $"ratar" (ex_ms false) $"/d/f"). reflexivity. Qed.
Print Assumptions C91_protocol_refuted.
