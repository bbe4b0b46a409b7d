(** C104, C105, C106: setting up and taking down a mount. *)
From Coq Require Import Ascii String.
From Verif Require Import PyBase PyDict PyStr Path_Spec Path_Proofs FileInfo Union_Model Tree_Source Subvol_Model Multi_Model
  Overlay_Model Overlay_Spec Overlay_Proofs Overlay_Steps Overlay_Props Mounts_Model Mounts_Spec Mounts_Proofs.

Local Open Scope nat_scope.

(** ** A small world for the examples *)

Definition plain_path (x : str) : location := filter (fun n => negb (str_eqb n [])) (split slash x).

Definition names_database : location := [$".ratarmount.overlay.sqlite"].
Definition source_a : source unit := tree_source [([], adir); ([$"f"], afile 1); ([$"a"], afile 11)] true.
Definition source_b : source unit := tree_source [([], adir); ([$"f"], afile 2)] true.
Definition source_overlay : source unit := tree_source [([], adir); ([$"f"], afile 3); (names_database, afile 4)] true.
Definition source_control : source unit := tree_source [([], adir); (control_folder, adir); (control_folder ++ [$"command"], afile 5)] true.
Definition source_empty : source unit := tree_source [([], adir)] true.

Definition world : folders := [([$"a.tar"], KFile); ([$"b.tar"], KFile); ([$"ov"], KDir); ([$"tmp"], KDir)].
Definition scratch : location := [$"tmp"; $"t"].

Definition openers (x : str) : res (option str * source unit) :=
  if str_eqb x $"/a.tar" then Ok (None, source_a)
  else if str_eqb x $"/b.tar" then Ok (None, source_b)
  else if str_eqb x $"/ov" then Ok (Some $"/ov", source_overlay)
  else if str_eqb x $"/tmp/t" then Ok (Some $"/tmp/t", source_overlay)
  else Err RatarmountError.

Notation start := (init plain_path openers source_control source_empty scratch).
Definition ask (inputs : list str) (overlay : str) (control beside : bool) : request := mkRequest inputs $"/mnt" overlay [] control beside.
Definition shows (x : res (root unit) * (folders * held)) (p : location) : option (option str * finfo unit) :=
  match fst x with Ok r => root_lookup r (written p) 0 | Err _ => None end.

Lemma plain_resolves : resolves plain_path scratch.
Proof.
  split; [|reflexivity]. intros x. unfold plain_path. set (l := filter _ (split slash x)).
  assert (Forall (fun n => n <> [] /\ ~ In slash n) l) as P.
  { apply Forall_forall. intros n I. apply filter_In in I as [I N]. split.
    - destruct (str_eqb_spec n []); [discriminate|assumption].
    - exact (split_In_no_sep slash x n I). }
  destruct l as [|n l]; [reflexivity|]. unfold written.
  change (slash :: join $"/" (n :: l)) with (([] : str) ++ slash :: join $"/" (n :: l)). rewrite split_app by (intros []). cbn [filter].
  destruct (str_eqb_spec [] []); [|congruence]. cbn [negb].
  assert (split slash (join $"/" (n :: l)) = n :: l) as ->.
  { apply split_join; [discriminate|]. eapply Forall_impl; [|exact P]. cbn. tauto. }
  apply Union_Proofs.filter_all. intros m I. rewrite Forall_forall in P. destruct (P m I) as [N _]. destruct (str_eqb_spec m []); [contradiction|reflexivity].
Qed.

(** ** C104: what the mount point is made of *)
Section Made.
  Context {U : Type}.
  Variable realpath : str -> location.
  Variable open_source : str -> res (opened U).
  Variables control_layer no_subvolumes : source U.
  Variable temporary : location.
  Notation init := (init realpath open_source control_layer no_subvolumes temporary).

  (** C104: what is only in an input, or in it and earlier ones, is shown as that input has it. *)
  Theorem C104_later_input_wins fs q r rest before p after folder s loc info : Forall proper_name loc -> loc <> [] ->
    init fs q = (Ok r, rest) -> q_side_by_side q = false ->
    q_inputs q = before ++ p :: after -> given realpath fs p ->
    realpath p <> realpath (q_point q) \/ (forall x, In x before -> realpath x <> realpath (q_point q)) ->
    open_source p = Ok (folder, s) -> s_lookup s (written loc) 0 = Some info ->
    (forall x f' s', In x after -> given realpath fs x -> open_source x = Ok (f', s') -> lacks s' loc) ->
    (forall o f' s', overlay_at realpath temporary (q_overlay q) o -> open_source (written o) = Ok (f', s') -> lacks s' loc) ->
    (q_control q = true -> lacks control_layer loc) ->
    root_lookup r (written loc) 0 = Some (folder, info).
  Proof.
    intros P N H Sb Ei G C O L La Lo Lc.
    refine (later_wins _ _ _ _ _ _ _ _ _ _ _ _ (folder, s) _ _ P N H Sb Ei G C O L _ _ Lc).
    - intros x [f' s'] I Gx Ox. exact (La x f' s' I Gx Ox).
    - intros o [f' s'] A Oo. exact (Lo o f' s' A Oo).
  Qed.

  (** C104: what the overlay folder has is shown as it has it. *)
  Theorem C104_overlay_wins fs q r rest o folder s loc info : Forall proper_name loc -> loc <> [] -> resolves realpath temporary ->
    init fs q = (Ok r, rest) -> q_side_by_side q = false -> overlay_at realpath temporary (q_overlay q) o ->
    o <> realpath (q_point q) \/ (forall x, In x (q_inputs q) -> realpath x <> realpath (q_point q)) ->
    open_source (written o) = Ok (folder, s) -> s_lookup s (written loc) 0 = Some info ->
    (q_control q = true -> lacks control_layer loc) ->
    root_lookup r (written loc) 0 = Some (folder, info).
  Proof. intros P N R H Sb A C O L Lc. exact (overlay_wins _ _ _ _ _ _ _ _ _ _ (folder, s) _ _ P N R H Sb A C O L Lc). Qed.

  (** C104: the control files are shown. *)
  Theorem C104_control_wins fs q r rest loc info : Forall proper_name loc -> loc <> [] ->
    init fs q = (Ok r, rest) -> q_side_by_side q = false -> q_control q = true ->
    s_lookup control_layer (written loc) 0 = Some info -> root_lookup r (written loc) 0 = Some (None, info).
  Proof. intros P N H Sb Ct L. exact (control_wins _ _ _ _ _ _ _ _ _ _ _ P N H Sb Ct L). Qed.

  (** C104: nothing else is shown. *)
  Theorem C104_nothing_else fs q r rest loc folder info : Forall proper_name loc -> loc <> [] ->
    init fs q = (Ok r, rest) -> q_side_by_side q = false -> root_lookup r (written loc) 0 = Some (folder, info) ->
    exists s, s_lookup s (written loc) 0 = Some info /\
      ((exists x, In x (q_inputs q) /\ given realpath fs x /\ open_source x = Ok (folder, s)) \/
       (exists o, overlay_at realpath temporary (q_overlay q) o /\ open_source (written o) = Ok (folder, s)) \/
       (q_control q = true /\ folder = None /\ (s = control_layer \/ s = no_subvolumes))).
  Proof. intros P N H Sb L. exact (shown_from _ _ _ _ _ _ _ _ _ _ _ _ P N H Sb L). Qed.

  (** C104: a mount point that is a file, inputs of which none exists and nothing to mount are refused; the first two before anything
      is touched. *)
  Theorem C104_refuses fs q :
    (fget fs (realpath (q_point q)) = Some KFile -> init fs q = (Err ValueError, (fs, mkHeld None None))) /\
    (q_inputs q <> [] -> (forall x, In x (q_inputs q) -> ~ given realpath fs x) -> init fs q = (Err ValueError, (fs, mkHeld None None))) /\
    (q_inputs q = [] -> q_overlay q = [] -> q_control q = false -> exists e, fst (init fs q) = Err e).
  Proof. split; [apply init_file|]. split; [apply init_missing|apply init_nothing]. Qed.

  (** C104: an input that does not exist is as good as not named, if another one exists. *)
  Theorem C104_missing_ignored fs a x b point overlay log control beside :
    ~ given realpath fs x -> (exists y, In y (a ++ b) /\ given realpath fs y) ->
    init fs (mkRequest (a ++ x :: b) point overlay log control beside) = init fs (mkRequest (a ++ b) point overlay log control beside).
  Proof. apply init_without. Qed.

  (** C104: if all that exists can be opened, the mount point is a folder or can be made, and the overlay folder, if any, is there and
      holds its database, the mount is set up. *)
  Theorem C104_starts fs q : resolves realpath temporary -> fresh_temporary realpath fs q temporary -> q_side_by_side q = false -> q_log q = [] ->
    fget fs (realpath (q_point q)) <> Some KFile ->
    (fget fs (realpath (q_point q)) = None ->
       fget fs (removelast (realpath (q_point q))) = Some KDir /\ forall x, In x (q_inputs q) -> realpath x <> realpath (q_point q)) ->
    (q_inputs q = [] \/ exists x, In x (q_inputs q) /\ given realpath fs x) ->
    (q_inputs q <> [] \/ q_overlay q <> [] \/ q_control q = true) ->
    (forall x, In x (q_inputs q) -> given realpath fs x -> exists s, open_source x = Ok s) ->
    (forall o, overlay_at realpath temporary (q_overlay q) o ->
       (o = temporary \/ fget fs o = Some KDir) /\
       (o <> realpath (q_point q) \/ (forall x, In x (q_inputs q) -> realpath x <> realpath (q_point q))) /\
       exists s info, open_source (written o) = Ok (Some (written o), s) /\
         s_lookup s (written [$".ratarmount.overlay.sqlite"]) 0 = Some info /\ is_reg_mode (fi_mode info) = true /\
         (q_control q = true -> lacks control_layer [$".ratarmount.overlay.sqlite"])) ->
    exists r, fst (init fs q) = Ok r.
  Proof. apply init_starts. Qed.

  (** C104, a finding: with --disable-union-mount, an input and an overlay cannot be mounted together. *)
  Theorem C104_side_by_side_overlay_refuted fs q o x sx : q_side_by_side q = true -> overlay_at realpath temporary (q_overlay q) o ->
    resolves realpath temporary -> o <> realpath (q_point q) ->
    In x (q_inputs q) -> given realpath fs x -> realpath x <> realpath (q_point q) -> open_source x = Ok sx ->
    (forall y s info, open_source y = Ok s -> s_lookup (snd s) $"/" 0 = Some info -> is_reg_mode (fi_mode info) = false) ->
    (forall info, s_lookup control_layer $"/" 0 = Some info -> is_reg_mode (fi_mode info) = false) ->
    (forall info, s_lookup no_subvolumes $"/" 0 = Some info -> is_reg_mode (fi_mode info) = false) ->
    exists e, fst (init fs q) = Err e.
  Proof. apply init_beside. Qed.
End Made.
Print Assumptions C104_later_input_wins.
Print Assumptions C104_overlay_wins.
Print Assumptions C104_control_wins.
Print Assumptions C104_nothing_else.
Print Assumptions C104_refuses.
Print Assumptions C104_missing_ignored.
Print Assumptions C104_starts.
Print Assumptions C104_side_by_side_overlay_refuted.

(** Two archives: the second one wins, the first one still shows what only it has; with an overlay and the control interface, these win. *)
Example C104_example :
  let two := start world (ask [$"/a.tar"; $"/missing.tar"; $"/b.tar"] [] false false) in
  let all := start world (ask [$"/a.tar"; $"/b.tar"] $"/ov" true false) in
  shows two [$"f"] = Some (None, afile 2) /\ shows two [$"a"] = Some (None, afile 11) /\
  shows all [$"f"] = Some (Some $"/ov", afile 3) /\ shows all [$"a"] = Some (None, afile 11) /\
  shows all (control_folder ++ [$"command"]) = Some (None, afile 5) /\
  shows all [$"g"] = None /\
  given plain_path world $"/a.tar" /\ ~ given plain_path world $"/missing.tar" /\ fget world (plain_path $"/mnt") = None /\
  fresh_temporary plain_path world (ask [] $":temp:" false false) scratch /\
  (exists r, fst (start world (ask [$"/a.tar"] $":temp:" false false)) = Ok r) /\
  (exists e, fst (start world (ask [$"/a.tar"] $"/ov" false true)) = Err e).
Proof.
  cbv zeta. repeat match goal with |- _ /\ _ => split end; try (vm_compute; reflexivity).
  - left. vm_compute. discriminate.
  - intros [H|(x & y & H)]; [vm_compute in H; congruence|].
    assert (Locate_Model.contains $"://" $"/missing.tar" = true) as K by (apply Locate_Proofs.contains_spec; eauto). vm_compute in K. discriminate.
  - split; [discriminate|]. split; [reflexivity|]. split; [reflexivity|]. repeat split; intros (t & H); vm_compute in H; discriminate.
  - eexists. vm_compute. reflexivity.
  - eexists. vm_compute. reflexivity.
Qed.

(** C104, a finding: the overlay does not win if it is the mount point and an earlier input as well. *)
Definition openers_at (x : str) : res (option str * source unit) := if str_eqb x $"/mnt" then Ok (Some $"/mnt", source_overlay) else openers x.

Theorem C104_overlay_at_point_refuted : exists fs q r rest o folder s loc info info',
  Forall proper_name loc /\ loc <> [] /\ q_side_by_side q = false /\ q_control q = false /\ overlay_at plain_path scratch (q_overlay q) o /\
  init plain_path openers_at source_control source_empty scratch fs q = (Ok r, rest) /\
  openers_at (written o) = Ok (folder, s) /\ s_lookup s (written loc) 0 = Some info /\
  root_lookup r (written loc) 0 = Some (None, info') /\ info' <> info.
Proof.
  exists (([$"mnt"], KDir) :: world), (mkRequest [$"/mnt"; $"/a.tar"] $"/mnt" $"/mnt" [] false false).
  eexists. eexists. exists [$"mnt"], (Some $"/mnt"), source_overlay, [$"f"], (afile 3), (afile 1).
  split; [repeat constructor; try discriminate; cbn; intuition discriminate|].
  repeat match goal with |- _ /\ _ => split end; try reflexivity; try discriminate.
  right. repeat split; discriminate.
Qed.
Print Assumptions C104_overlay_at_point_refuted.

(** ** C105: the control folder is kept apart from the overlay *)
Section Apart.
  Context {A : Type} (zero : A).
  Variable lower : location -> option (@lnode A).
  Variable lower_names : location -> list str.
  Variable attributes : @ostate A -> location -> Z * Z * Z * Z.
  Notation guarded := (guarded zero lower lower_names attributes [control_prefix]).
  Notation run_guarded := (run_guarded zero lower lower_names attributes [control_prefix]).

  (** C105: calls on what is in the control folder are refused and change nothing, renaming and writing to an open file aside. *)
  Theorem C105_calls_refused st o p : subject o p -> (forall a b, o <> OpRename a b) -> Forall proper_name p -> in_control p ->
    guarded st o = (Err FileNotFound, st).
  Proof.
    intros S N P I. apply forbidden_spec in I; [|exact P]. unfold Mounts_Model.guarded.
    destruct o as [q m|q m|q|q s|q s|q|q|a b|q n|q|i d k|q c]; cbn [checked_path subject] in *; try (subst q; now rewrite I); [|destruct S].
    exfalso. exact (N a b eq_refl).
  Qed.

  (** C105: all other calls do what they would do without the control folder. *)
  Theorem C105_other_calls_unaffected st o : (forall p, subject o p -> Forall proper_name p /\ ~ in_control p) ->
    guarded st o = step zero lower lower_names attributes st o.
  Proof.
    intros H. unfold Mounts_Model.guarded.
    assert (forall p, subject o p -> forbidden [control_prefix] (written p) = false) as K.
    { intros p S. destruct (H p S) as [P N]. destruct (forbidden [control_prefix] (written p)) eqn:E; [|reflexivity].
      apply forbidden_spec in E; [contradiction|exact P]. }
    destruct o as [q m|q m|q|q s|q s|q|q|a b|q n|q|i d k|q c]; cbn [checked_path subject] in *; try (now rewrite (K q eq_refl)); reflexivity.
  Qed.

  Hypothesis low : tree_like LDir lower lower_names.

  (** C105: whatever is called, as long as nothing is renamed from or to the control folder, the control files stay as they are and
      nothing of them gets into the overlay folder. *)
  Theorem C105_control_intact_partial h : (forall o p, In o h -> subject o p -> Forall proper_name p) ->
    (forall o, In o h -> ~ renames_control o) -> forall q, in_control q ->
    let st := run_guarded fresh_overlay h in
    oget (o_fs st) q = None /\ visible lower st q = visible lower fresh_overlay q.
  Proof. intros P R q Q. apply (run_control zero lower lower_names attributes low); auto. apply fresh_kept. Qed.
End Apart.
Print Assumptions C105_calls_refused.
Print Assumptions C105_other_calls_unaffected.
Print Assumptions C105_control_intact_partial.

(** An archive with the control files on top. *)
Definition with_command : list (location * @lnode nat) :=
  [([$"a"], LFile [1; 2; 3]); (control_folder, LDir); (control_folder ++ [$"command"], LFile [7]); (control_folder ++ [$"output"], LFile [8])].
Lemma with_command_tree : tree_like LDir (table_lower with_command) (table_names with_command).
Proof. apply table_tree. vm_compute. reflexivity. Qed.
Notation guard st o := (guarded 0 (table_lower with_command) (table_names with_command) plain_attributes [control_prefix] st o).
Notation guards := (run_guarded 0 (table_lower with_command) (table_names with_command) plain_attributes [control_prefix] fresh_overlay).
Definition command_file : location := control_folder ++ [$"command"].

Example C105_example :
  let h := [OpUnlink command_file; OpCreate (control_folder ++ [$"x"]) 420%Z; OpCreate [$"b"] 420%Z; OpRename [$"b"] [$"c"]; OpTruncate [$"a"] 1; OpUnlink [$"a"]] in
  fst (guard fresh_overlay (OpUnlink command_file)) = Err FileNotFound /\
  fst (guard fresh_overlay (OpUnlink [$"a"])) = Ok tt /\
  (forall o p, In o h -> subject o p -> Forall proper_name p) /\ (forall o, In o h -> ~ renames_control o) /\ in_control command_file /\
  visible (table_lower with_command) (guards h) command_file = Some (EFile [7]) /\
  visible (table_lower with_command) (guards h) [$"c"] = Some (EFile []) /\
  visible (table_lower with_command) (guards h) [$"a"] = None.
Proof.
  cbv zeta. split; [reflexivity|]. split; [reflexivity|]. split; [|split; [|split; [|repeat split; vm_compute; reflexivity]]].
  - intros o p I S. cbn [In] in I. repeat (destruct I as [<-|I]; [cbn [subject] in S; repeat (destruct S as [S|S]); subst p; repeat constructor; try discriminate; cbn; intuition discriminate|]). destruct I.
  - intros o I R. cbn [In] in I. repeat (destruct I as [<-|I]; [cbn [renames_control] in R; try contradiction|]); [|destruct I].
    destruct R as (p & [->| ->] & [(t & E)|E]); discriminate.
  - exists $"command", []. reflexivity.
Qed.

(** C105, a finding: rename is not guarded.  Files can be renamed into the control folder, which puts them into the overlay folder, and
    control files can be renamed away. *)
Theorem C105_rename_refuted :
  (exists st1, guard fresh_overlay (OpRename [$"a"] (control_folder ++ [$"b"])) = (Ok tt, st1) /\
     oget (o_fs st1) (control_folder ++ [$"b"]) <> None /\
     visible (table_lower with_command) st1 (control_folder ++ [$"b"]) = Some (EFile [1; 2; 3])) /\
  (exists st1, guard fresh_overlay (OpRename command_file [$"b"]) = (Ok tt, st1) /\
     visible (table_lower with_command) fresh_overlay command_file = Some (EFile [7]) /\
     visible (table_lower with_command) st1 command_file = None).
Proof. split; eexists; (split; [vm_compute; reflexivity|]); split; vm_compute; try reflexivity; discriminate. Qed.
Print Assumptions C105_rename_refuted.

(** ** C106: what a mount leaves behind *)
Section Left.
  Context {U : Type}.
  Variable realpath : str -> location.
  Variable open_source : str -> res (opened U).
  Variables control_layer no_subvolumes : source U.
  Variable temporary : location.
  Notation init := (init realpath open_source control_layer no_subvolumes temporary).

  (** C106: a mount that could not be set up leaves the folders as they were, except for those it was asked to make. *)
  Theorem C106_failure_leaves_no_trace fs q e fs1 h : in_folders fs -> fresh_temporary realpath fs q temporary ->
    init fs q = (Err e, (fs1, h)) ->
    forall x, fget (close fs1 h) x = fget fs x \/ (fget fs x = None /\ asked_for realpath q x).
  Proof. intros F T H. exact (failure_left _ _ _ _ _ _ _ _ _ _ F T H). Qed.

  (** C106: neither does one that was used and taken down, except for what is in a named overlay folder. *)
  Theorem C106_leaves_no_trace fs q r fs1 h fs2 : in_folders fs -> fresh_temporary realpath fs q temporary ->
    init fs q = (Ok r, (fs1, h)) -> busy_overlay realpath temporary q fs1 fs2 ->
    forall x, fget (close fs2 h) x = fget fs x \/
      (fget fs x = None /\ asked_for realpath q x) \/
      (q_overlay q <> $":temp:" /\ exists p, overlay_at realpath temporary (q_overlay q) p /\ at_or_below p x /\ x <> p).
  Proof.
    intros F T H B. apply (nothing_left _ _ _ _ _ _ _ _ _ _ _ F T H). intros x. destruct (B x) as [K|K]; [now left|right]. split; [eauto|exact K].
  Qed.

  (** C106: while it is there, the mount point and the overlay folder are there. *)
  Theorem C106_mounted fs q r fs1 h : resolves realpath temporary -> fresh_temporary realpath fs q temporary -> init fs q = (Ok r, (fs1, h)) ->
    (q_log q = [] -> fget fs1 (realpath (q_point q)) = Some KDir) /\ fget fs1 (realpath (q_point q)) <> None /\
    forall o, overlay_at realpath temporary (q_overlay q) o -> fget fs1 o <> None.
  Proof. intros R T H. apply (mounted _ _ _ _ _ _ _ _ _ _ R (proj1 T) H). Qed.
End Left.
Print Assumptions C106_failure_leaves_no_trace.
Print Assumptions C106_leaves_no_trace.
Print Assumptions C106_mounted.

Lemma world_folders : in_folders world.
Proof.
  intros p n H. assert (exists k, In (p ++ [n], k) world) as (k & I).
  { unfold fget in H. destruct (p ++ [n]) as [|a b] eqn:E; [now destruct p|]. destruct (dget loc_eqb world (a :: b)) as [k|] eqn:D; [|congruence].
    exists k. exact (dget_Some_In loc_eqb loc_eqb_spec _ _ _ D). }
  cbn in I. repeat (destruct I as [I|I]; [destruct p as [|a [|b p]]; [reflexivity|discriminate|discriminate]|]). destruct I.
Qed.

(** With a temporary overlay: the mount point and the overlay folder are made, a file is written, and all of it is gone afterwards. *)
Example C106_example :
  let q := ask [$"/a.tar"] $":temp:" false false in
  match start world q with
  | (Ok _, (fs1, h)) =>
      let fs2 := fset fs1 (scratch ++ [$"new"]) KFile in
      fget fs1 [$"mnt"] = Some KDir /\ fget fs1 scratch = Some KDir /\ busy_overlay plain_path scratch q fs1 fs2 /\
      fget (close fs2 h) [$"mnt"] = None /\ fget (close fs2 h) scratch = None /\ fget (close fs2 h) (scratch ++ [$"new"]) = None /\
      fget (close fs2 h) [$"a.tar"] = Some KFile
  | _ => False
  end /\ in_folders world /\ fresh_temporary plain_path world q scratch /\ resolves plain_path scratch.
Proof.
  cbv zeta. split; [|split; [exact world_folders|split; [|exact plain_resolves]]].
  - destruct (start world (ask [$"/a.tar"] $":temp:" false false)) as [res [fs1 h]] eqn:E. vm_compute in E. injection E as <- <- <-.
    split; [reflexivity|]. split; [reflexivity|]. split; [|repeat split; vm_compute; reflexivity].
    intros x. rewrite fget_fset by discriminate. destruct (loc_eqb_spec x (scratch ++ [$"new"])) as [->|]; [|now left].
    right. exists scratch. split; [now left|]. split; [exists [$"new"]; reflexivity|discriminate].
  - split; [discriminate|]. split; [reflexivity|]. split; [reflexivity|]. repeat split; intros (t & H); vm_compute in H; discriminate.
Qed.
