(** C113: mount sources with just one file. *)
From Coq Require Import Ascii String.
From Verif Require Import PyBase PyStr FileInfo Path_Model Path_Spec Path_Proofs Stencil_Model MemFile_Spec Stencil_Spec Stencil_Props Lone_Model.
Local Open Scope Z_scope.

(** What is to be seen: permissions to execute, and to write and read as the file object allows. *)
Definition permissions (writable readable : bool) : Z := 64 + 8 + 1 + (if writable then 128 + 16 + 2 else 0) + (if readable then 256 + 32 + 4 else 0).

Lemma mode_permissions {A} (f : opened A) : get_mode f = permissions (o_writable f) (o_readable f).
Proof. destruct f as [c s [] []]; reflexivity. Qed.
Lemma permissions_land w r : Z.land (permissions w r) 511 = permissions w r.
Proof. destruct w, r; reflexivity. Qed.
Lemma permissions_reg w r : Z.land (Z.lor (permissions w r) S_IFREG) 511 = permissions w r.
Proof. destruct w, r; reflexivity. Qed.
Lemma permissions_dir w r : Z.land (Z.lor (permissions w r) S_IFDIR) 511 = permissions w r.
Proof. destruct w, r; reflexivity. Qed.
Lemma permissions_lor w r : Z.lor (permissions w r) S_IFREG = S_IFREG + permissions w r /\ Z.lor (permissions w r) S_IFDIR = S_IFDIR + permissions w r.
Proof. destruct w, r; split; reflexivity. Qed.

Lemma name_of path : lstrip slash (posix_normpath (slash :: path)) = join $"/" (denotes path).
Proof. destruct (posix_normpath_abs path) as (n & ->). rewrite lstrip_repeat. apply join_head, denotes_proper. Qed.
Lemma slash_in s : existsb (char_eqb slash) s = true <-> In slash s.
Proof.
  rewrite existsb_exists. split; [intros (c & I & E); unfold char_eqb in E; apply Ascii.eqb_eq in E; now subst|]. intros I. exists slash. split; [exact I|apply Ascii.eqb_refl].
Qed.

Lemma whole {A} (c : list A) : joined (fun _ => c) [(O, 0, len c)] = c.
Proof. unfold joined. cbn [map concat flat_map]. rewrite app_nil_r. unfold bytes_at, len. cbn [Z.to_nat skipn]. rewrite Nat2Z.id. apply firstn_all. Qed.

Section Single.
  Context {A : Type}.
  Variables uid gid now : Z.

  (** It is made exactly for paths that lead to something directly below the root, and shows this name. *)
  Theorem C113_name (path : str) (file : option (opened A)) :
    (forall s, init uid gid path now file = Ok s -> exists n, denotes path = [n] /\ proper_name n /\ list_ s $"/" = Some [n]) /\
    (forall n, denotes path = [n] -> exists s, init uid gid path now file = Ok s).
  Proof.
    pose proof (denotes_proper path) as P. unfold init. rewrite name_of. split.
    - intros s E. destruct (denotes path) as [|n [|m l]] eqn:D.
      + cbn in E. discriminate E.
      + cbn [join] in E. apply Forall_cons_iff in P as [P _]. exists n. split; [reflexivity|]. split; [exact P|]. destruct n as [|c n]; [destruct P; congruence|]. cbn [orb] in E.
        destruct (existsb (char_eqb slash) (c :: n)); [discriminate E|]. destruct file; injection E as <-; reflexivity.
      + exfalso. assert (existsb (char_eqb slash) (join $"/" (n :: m :: l)) = true) as X.
        { apply slash_in. cbn [join]. apply in_or_app. right. cbn. now left. }
        rewrite X, orb_true_r in E. discriminate E.
    - intros n D. rewrite D in *. apply Forall_cons_iff in P as [(P1 & _ & _ & P2) _]. cbn [join].
      assert (existsb (char_eqb slash) n = false) as ->. { destruct (existsb (char_eqb slash) n) eqn:X; [|reflexivity]. apply slash_in in X. contradiction. }
      destruct n as [|c n]; [congruence|]. cbn [orb]. destruct file; eauto.
  Qed.

  Lemma init_inv path (file : option (opened A)) s : init uid gid path now file = Ok s -> exists n, denotes path = [n] /\ proper_name n /\ s_path s = n /\ s_mtime s = now /\ s_shared s = file /\
    s_info s = match file with None => None | Some f => Some (mkInfo (len (o_content f)) now (Z.lor (permissions (o_writable f) (o_readable f)) S_IFREG) [] uid gid []) end.
  Proof.
    intros E. destruct (proj1 (C113_name path file) s E) as (n & D & P & L). exists n. split; [exact D|]. split; [exact P|]. unfold init in E. rewrite name_of, D in E. cbn [join] in E.
    destruct (_ || _); [discriminate E|]. destruct file as [f|]; injection E as <-; cbn -[permissions get_mode]; rewrite ?mode_permissions; repeat split.
  Qed.

  (** What the file and the root are like; [current] is what opening the file gives, for a file object that is given the same at all times. *)
  Definition current_of (file : option (opened A)) (current : opened A) : Prop := match file with Some f => current = f | None => True end.
  Definition the_file (current : opened A) : finfo unit :=
    mkInfo (Z.of_nat (List.length (o_content current))) now (S_IFREG + permissions (o_writable current) (o_readable current)) [] uid gid [].
  Definition the_root (current : opened A) : finfo unit :=
    mkInfo 0 now (S_IFDIR + permissions (o_writable current) (o_readable current)) [] uid gid [].

  (** The root is a folder that lists the name, the name is a regular file with the length of the content as its size, nothing else is
      there, also if the path is written in another way, and whatever is listed can be looked up. *)
  Theorem C113_tree (path : str) (file : option (opened A)) (current : opened A) (s : single A) :
    init uid gid path now file = Ok s -> current_of file current -> (file = None -> o_seekable current = true) ->
    exists n, denotes path = [n] /\
    list_ s $"/" = Some [n] /\ (forall p l, list_ s p = Some l -> denotes p = [] /\ l = [n]) /\
    lookup uid gid s current $"/" = Some (the_root current) /\ lookup uid gid s current (slash :: n) = Some (the_file current) /\
    (forall p i, lookup uid gid s current p = Some i -> (denotes p = [] /\ i = the_root current) \/ (denotes p = [n] /\ i = the_file current)).
  Proof.
    intros E C K. destruct (init_inv path file s E) as (n & D & P & Sn & Sm & Ss & Si). exists n. split; [exact D|]. pose proof P as (P1 & P2 & P3 & P4).
    assert (create_file_info uid gid s current true (Some 0) None = the_root current) as Rt.
    { unfold create_file_info, the_root. rewrite Si, Sm. destruct file as [f|]; cbn -[permissions get_mode]; [cbn in C; subst f; rewrite permissions_reg|rewrite mode_permissions]; now rewrite (proj2 (permissions_lor _ _)). }
    assert (create_file_info uid gid s current false None None = the_file current) as Fl.
    { unfold create_file_info, the_file. rewrite Si, Sm. destruct file as [f|]; cbn -[permissions get_mode]; [cbn in C; subst f; rewrite permissions_reg|rewrite mode_permissions, (K eq_refl)]; now rewrite (proj1 (permissions_lor _ _)). }
    assert (forall p, is_root p = true -> denotes p = []) as Ro.
    { intros p Q. unfold is_root in Q. destruct p as [|c p]; [reflexivity|]. apply str_eqb_eq in Q. rewrite Q. reflexivity. }
    split; [unfold list_; cbn; now rewrite Sn|]. split.
    { intros p l L. unfold list_ in L. destruct (is_root p) eqn:R; [|discriminate L]. injection L as <-. rewrite Sn. auto. }
    split; [unfold lookup; cbn; now rewrite Rt|].
    assert (forall m, proper_name m -> strip slash (slash :: m) = m) as Sl.
    { intros m Pm. change (slash :: m) with (written [m]). rewrite strip_written; [reflexivity|constructor; [exact Pm|constructor]|discriminate]. }
    split.
    - unfold lookup. assert (is_root (slash :: n) = false) as ->.
      { unfold is_root. destruct (str_eqb_spec (slash :: n) $"/") as [Q|_]; [|reflexivity]. exfalso. injection Q as Q. congruence. }
      rewrite Sl by exact P. rewrite Sn, str_eqb_refl. now rewrite Fl.
    - intros p i L. unfold lookup in L. destruct (is_root p) eqn:R; [left; injection L as <-; split; [now apply Ro|now rewrite Rt]|].
      right. destruct (str_eqb_spec (strip slash p) (s_path s)) as [Q|_]; [|discriminate L]. injection L as <-. split; [|now rewrite Fl]. rewrite Sn in Q.
      assert (forall q, denotes (lstrip slash q) = denotes q) as Dl.
      { induction q as [|c q IH]; [reflexivity|]. change (lstrip slash (c :: q)) with (if char_eqb c slash then lstrip slash q else c :: q). destruct (char_eqb c slash) eqn:Ec; [|reflexivity]. apply Ascii.eqb_eq in Ec. subst c. rewrite IH. symmetry. apply denotes_cons_slash. }
      assert (forall q, denotes (rstrip slash q) = denotes q) as Dr.
      { intros q. unfold rstrip. rewrite <- (rev_involutive q) at 2. generalize (rev q). intros r. induction r as [|c r IH]; [reflexivity|]. change (lstrip slash (c :: r)) with (if char_eqb c slash then lstrip slash r else c :: r). destruct (char_eqb c slash) eqn:Ec; [|reflexivity].
        apply Ascii.eqb_eq in Ec. subst c. rewrite IH. cbn [rev]. rewrite (denotes_app_slash (rev r) []). reflexivity. }
      rewrite <- Dl, <- Dr. change (rstrip slash (lstrip slash p)) with (strip slash p). rewrite Q. rewrite <- denotes_cons_slash. apply (denotes_child [] n P).
  Qed.

  (** A file object that was given: whatever was looked up as a file can be opened with every buffering, and then behaves as a file with
      this content over every history of calls, whatever position the file object is left at by others. *)
  Theorem C113_open (path : str) (f : opened A) (s : single A) (p : str) (i : finfo unit) (buffering : Z) :
    init uid gid path now (Some f) = Ok s -> lookup uid gid s f p = Some i -> denotes p <> [] ->
    exists stencils buffer, open_ uid gid s f i buffering = Ok (View stencils buffer) /\ (buffer = None <-> buffering = 0) /\
    forall calls position, Forall documented calls -> no_negative_seek (o_content f) 0 calls ->
    exists v, sf_init stencils = Ok v /\ map to_answer (sf_run (fun _ => o_content f) (v, fun _ => position) (map to_op calls)) = mem_run (o_content f) 0 calls.
  Proof.
    intros E L N. destruct (C113_tree path (Some f) f s E eq_refl ltac:(discriminate)) as (n & D & _ & _ & _ & _ & K). destruct (K p i L) as [[Q _]|[_ ->]]; [congruence|].
    destruct (init_inv path (Some f) s E) as (_ & _ & _ & _ & Sm & Ss & Si). unfold open_. 
    assert (same_info (the_file f) (create_file_info uid gid s f false (Some (fi_size (the_file f))) (Some (Z.land (fi_mode (the_file f)) 511))) = true) as ->.
    { unfold create_file_info, the_file. rewrite Si, Sm. cbn [fi_size fi_mode fi_uid fi_gid]. rewrite <- (proj1 (permissions_lor _ _)), permissions_reg. unfold same_info. cbn [fi_size fi_mtime fi_mode fi_linkname fi_uid fi_gid fi_userdata List.length Nat.eqb].
      now rewrite !Z.eqb_refl. }
    cbn [negb]. rewrite Ss, Si. do 2 eexists. split; [reflexivity|]. split.
    { destruct (Z.eqb_spec buffering 0); split; congruence. }
    intros calls position F G. destruct (C02_stenciled_history_partial A (fun _ => o_content f) [(O, 0, len (o_content f))] calls (fun _ => position)) as (v & V1 & V2).
    - constructor; [|constructor]. unfold inside. unfold len. lia.
    - exact F.
    - rewrite whole. exact G.
    - exists v. split; [exact V1|]. now rewrite V2, whole.
  Qed.

  (** A function for opening that was given: what was looked up can be opened, also if the content has changed since, and the file is what
      the function returns. *)
  Theorem C113_fresh (path : str) (s : single A) (p : str) (i : finfo unit) (before current : opened A) (buffering : Z) :
    init uid gid path now None = Ok s -> o_seekable before = true -> lookup uid gid s before p = Some i -> denotes p <> [] ->
    open_ uid gid s current i buffering = Ok (Fresh current).
  Proof.
    intros E B L N. destruct (C113_tree path None before s E I ltac:(auto)) as (n & D & _ & _ & _ & _ & K). destruct (K p i L) as [[Q _]|[_ ->]]; [congruence|].
    destruct (init_inv path None s E) as (_ & _ & _ & _ & Sm & Ss & Si). unfold open_.
    assert (same_info (the_file before) (create_file_info uid gid s current false (Some (fi_size (the_file before))) (Some (Z.land (fi_mode (the_file before)) 511))) = true) as ->.
    { unfold create_file_info, the_file. rewrite Si, Sm. cbn [fi_size fi_mode fi_uid fi_gid]. rewrite <- (proj1 (permissions_lor _ _)), permissions_reg. unfold same_info. cbn [fi_size fi_mtime fi_mode fi_linkname fi_uid fi_gid fi_userdata List.length Nat.eqb].
      now rewrite !Z.eqb_refl. }
    cbn [negb]. now rewrite Ss.
  Qed.

  (** Nothing but what lookup gave for the file is opened: no folder, no link, and nothing of another time, owner or mount source. *)
  Theorem C113_refused (path : str) (file : option (opened A)) (current : opened A) (s : single A) (i : finfo unit) (buffering : Z) :
    init uid gid path now file = Ok s ->
    (fi_mtime i <> now \/ fi_uid i <> uid \/ fi_gid i <> gid \/ fi_linkname i <> [] \/ fi_userdata i <> [] \/ Z.land (fi_mode i) 61440 <> S_IFREG) ->
    open_ uid gid s current i buffering = Err ValueError.
  Proof.
    intros E H. destruct (init_inv path file s E) as (_ & _ & _ & _ & Sm & Ss & Si). unfold open_.
    destruct (same_info i _) eqn:Q; [exfalso|reflexivity]. unfold same_info, create_file_info in Q. rewrite Sm, Si in Q. cbn [fi_size fi_mtime fi_mode fi_linkname fi_uid fi_gid fi_userdata List.length] in Q.
    rewrite !andb_true_iff in Q. destruct Q as ((((((_ & Q1) & Q2) & Q3) & Q4) & Q5) & Q6). apply Z.eqb_eq in Q1, Q2, Q4, Q5. apply str_eqb_eq in Q3. apply Nat.eqb_eq in Q6.
    destruct H as [H|[H|[H|[H|[H|H]]]]].
    - congruence.
    - apply H. rewrite Q4. destruct file; reflexivity.
    - apply H. rewrite Q5. destruct file; reflexivity.
    - congruence.
    - apply H. destruct (fi_userdata i); [reflexivity|discriminate Q6].
    - apply H. rewrite Q2. rewrite Z.land_lor_distr_l, <- Z.land_assoc. change (Z.land 511 61440) with 0. rewrite Z.land_0_r. reflexivity.
  Qed.
End Single.

(** Not so, wanted: the size of the file is the length of its content whatever the function for opening returns: files that cannot be
    sought in have the size 0. *)
Theorem C113_unseekable_refuted : ~ forall (uid gid now : Z) (path : str) (s : single Z) (current : opened Z) i,
  init uid gid path now None = Ok s -> lookup uid gid s current (slash :: path) = Some i -> fi_size i = Z.of_nat (List.length (o_content current)).
Proof.
  intros H. specialize (H 0 0 0 $"output" (mkSingle $"output" 0 None None) (mkOpened [65] false false true) (mkInfo 0 0 33133 [] 0 0 []) eq_refl eq_refl). cbn in H. discriminate H.
Qed.

(** Not so, wanted: a path can be written in any way. *)
Theorem C113_spelling_refuted : ~ forall (s : single Z) path now current p, init 0 0 path now (Some current) = Ok s -> denotes p = denotes path -> lookup 0 0 s current p <> None.
Proof.
  intros H. set (f := mkOpened [65] true false true). destruct (init 0 0 $"a" 0 (Some f)) as [s|] eqn:E; [|discriminate E].
  apply (H s $"a" 0 f $"/b/../a" E eq_refl). vm_compute in E. injection E as <-. reflexivity.
Qed.

Example C113_case : let f := mkOpened [65; 66; 67] true false true in
  match init 1000 100 $"x/../split" 7 (Some f) with
  | Ok s => list_ s [] = Some [$"split"] /\ lookup 1000 100 s f $"/split" = Some (mkInfo 3 7 33133 [] 1000 100 []) /\
            open_ 1000 100 s f (mkInfo 3 7 33133 [] 1000 100 []) (-1) = Ok (View [(O, 0, 3)] (Some 8192)) /\
            open_ 1000 100 s f (mkInfo 0 7 16749 [] 1000 100 []) (-1) = Err ValueError
  | Err _ => False
  end.
Proof. vm_compute. repeat split. Qed.

Print Assumptions C113_name.
Print Assumptions C113_tree.
Print Assumptions C113_open.
Print Assumptions C113_fresh.
Print Assumptions C113_refused.
Print Assumptions C113_unseekable_refuted.
Print Assumptions C113_spelling_refuted.
