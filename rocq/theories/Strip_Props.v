(** C37: what is stripped from file names.  C48: the inferred mount point. *)
From Coq Require Import Ascii String.
From Verif Require Import PyBase PyStr Strip_Model Strip_Spec Strip_Proofs.

(** What [strip_suffix] returns, for every path and every rule list: the folder is kept, and what is left of the name is what
    [left_over] says. *)
Theorem C37_left_over folder name rules : ~ In "/"%char name ->
  exists result, strip_suffix (place folder name) rules = place folder result /\ left_over rules name result.
Proof. intros N. eexists. split; [now apply strip_place|apply strip_left_over]. Qed.
Print Assumptions C37_left_over.

(** In particular it is a prefix of the name. *)
Theorem C37_prefix folder name rules : ~ In "/"%char name ->
  exists result t, strip_suffix (place folder name) rules = place folder result /\ name = result ++ t.
Proof.
  intros N. destruct (C37_left_over folder name rules N) as (result & E & L). destruct (left_over_prefix _ _ _ L) as (t & Et). eauto.
Qed.
Print Assumptions C37_prefix.

(** Nothing changes if no including rule matches the end. *)
Theorem C37_unchanged folder name rules : ~ In "/"%char name ->
  (forall r k, In r rules -> r_include r = true -> ~ matches r name k) ->
  strip_suffix (place folder name) rules = place folder name.
Proof. intros N H. rewrite strip_place by exact N. now rewrite strip_unchanged. Qed.
Print Assumptions C37_unchanged.

(** An exclusion that matches the end undoes everything before it. *)
Theorem C37_exclusion folder name r1 x r2 k : ~ In "/"%char name -> r_include x = false -> matches x name k ->
  strip_suffix (place folder name) (r1 ++ x :: r2) = strip_suffix (place folder name) r2.
Proof. intros N R M. rewrite !strip_place by exact N. now rewrite (strip_exclusion name r1 x r2 k). Qed.
Print Assumptions C37_exclusion.

(** The order of rules does not matter as long as all include. *)
Theorem C37_order folder name rules1 rules2 : ~ In "/"%char name ->
  (forall r, In r rules1 -> r_include r = true) -> (forall r, In r rules1 <-> In r rules2) ->
  strip_suffix (place folder name) rules1 = strip_suffix (place folder name) rules2.
Proof.
  intros N I S. rewrite !strip_place by exact N. f_equal. eapply left_over_same_rules; [exact I|exact S|apply strip_left_over|apply strip_left_over].
Qed.
Print Assumptions C37_order.

(** The patterns of the user: every pattern stands for some rules, and for names that do not start with a dot, the longest
    suffix that a pattern behind the last matching exclusion matches is removed.  How patterns are grouped does not matter. *)
Theorem C37_patterns translate categories folder name patterns rss : ~ In "/"%char name ->
  (forall p x, glob (translate ("."%char :: p)) x -> exists r, x = "."%char :: r) ->
  Forall2 (entry translate categories) patterns rss -> (forall r, name <> "."%char :: r) ->
  exists result, strip_suffix (place folder name) (compile_suffix_rules translate categories patterns) = place folder result /\
                 shortest_left (concat rss) name result.
Proof. intros N T E D. eexists. split; [now apply strip_place|]. now apply compiled_strip. Qed.
Print Assumptions C37_patterns.

Theorem C37_every_pattern_reads translate categories p : exists rs, entry translate categories p rs.
Proof. eexists. apply entry_rules_spec. Qed.
Print Assumptions C37_every_pattern_reads.

Theorem C37_pattern_reads_once translate categories p rs1 rs2 :
  entry translate categories p rs1 -> entry translate categories p rs2 -> rs1 = rs2.
Proof. intros H1 H2. now rewrite (entry_unique _ _ _ _ H1), (entry_unique _ _ _ _ H2). Qed.
Print Assumptions C37_pattern_reads_once.

(** The rule for the first part of a split file matches at most once, behind the last dot. *)
Theorem C37_split_once inc name a b : matches (mkRule inc SplitExt) name a -> matches (mkRule inc SplitExt) name b -> a = b.
Proof.
  assert (forall x y, x < y -> matches (mkRule inc SplitExt) name x -> matches (mkRule inc SplitExt) name y -> False) as W.
  { intros x y L [_ Hx] [_ Hy]. cbn [r_regex] in *. apply (first_part_one_dot (skipn x name) (y - x)); [exact Hx|lia|].
    rewrite skipn_twice. now replace (y - x + x) with y by lia. }
  intros Ha Hb. destruct (Nat.lt_trichotomy a b) as [L|[E|L]]; [exfalso; eauto|exact E|exfalso; eauto].
Qed.
Print Assumptions C37_split_once.

(** ** A concrete reading of globs, for the examples. *)
Definition simple_translate (p : str) : list gtok :=
  map (fun c => if char_eqb c "*" then Star else if char_eqb c "?" then AnyChar else Lit c) p.
Definition some_categories (c : str) : option (list str) :=
  if str_eqb c $"all" then Some (map list_ascii_of_string ["tar"; "tar.gz"; "gz"; "zip"]%string) else None.

Lemma simple_translate_dot p x : glob (simple_translate ("."%char :: p)) x -> exists r, x = "."%char :: r.
Proof.
  cbn. intros H. inversion H as [|y c q s E _| | | |]; subst. exists s. f_equal.
  destruct E as [E|(n & L & [[E _]|[_ E]])]; [congruence| |]; apply (f_equal nat_of_ascii) in E; rewrite nat_ascii_embedding in E by lia; cbn in E; lia.
Qed.

Example C37_example :
  strip_suffix $"dir/a.b.TAR.gz" (compile_suffix_rules simple_translate some_categories [$"/all/"]) = $"dir/a.b" /\
  strip_suffix $"a.tar.001" (compile_suffix_rules simple_translate some_categories [$"/split"; $"001/-"; $"tar.*"]) = $"a" /\
  strip_suffix $"a.tar.001" (compile_suffix_rules simple_translate some_categories [$"tar.*"; $"/split/-"]) = $"a.tar.001".
Proof. repeat split; vm_compute; reflexivity. Qed.

Example C37_patterns_example : exists result,
  strip_suffix (place (Some $"dir") $"a.tar.gz") (compile_suffix_rules simple_translate some_categories [$"/all/"; $"zip/-"]) = place (Some $"dir") result /\
  shortest_left (concat [entry_rules simple_translate some_categories $"/all/"; entry_rules simple_translate some_categories $"zip/-"]) $"a.tar.gz" result.
Proof.
  apply C37_patterns.
  - cbn. intros I. repeat (destruct I as [I|I]; [discriminate I|]). exact I.
  - exact simple_translate_dot.
  - repeat constructor; apply entry_rules_spec.
  - discriminate.
Qed.

Example C37_exclusion_example : matches (mkRule false SplitExt) $"a.tar.001" 5 /\ matches (mkRule false (Globs [simple_translate $".?a*"])) $"a.tar.001" 1.
Proof.
  split; (split; [cbn; lia|]).
  - exists 2. right. right. right. reflexivity.
  - exists (simple_translate $".?a*"). split; [now left|]. apply glob_match_sound. reflexivity.
Qed.

(** The code says that stripping shall not leave an empty name.  It does when the name itself is a suffix. *)
Theorem C37_empty_refuted :
  ~ (forall translate categories patterns name, (forall p x, glob (translate ("."%char :: p)) x -> exists r, x = "."%char :: r) ->
       ~ In "/"%char name -> name <> [] -> strip_suffix name (compile_suffix_rules translate categories patterns) <> []).
Proof.
  intros H. apply (H simple_translate some_categories [$"/all/"] $".tar.gz"); [exact simple_translate_dot| |discriminate|vm_compute; reflexivity].
  cbn. intros I. repeat (destruct I as [I|I]; [discriminate I|]). exact I.
Qed.
Print Assumptions C37_empty_refuted.

(** ** C48 *)
(** The inferred mount point is never the archive itself. *)
Theorem C48_differs translate categories source : determine_mount_point translate categories source <> source.
Proof. apply mount_point_differs. Qed.
Print Assumptions C48_differs.

(** The full statement is that for every local archive it is a new, nonempty name in the folder of the archive.  It holds for
    names that do not start with a dot. *)
Theorem C48_beside_partial translate categories folder name :
  (forall p x, glob (translate ("."%char :: p)) x -> exists r, x = "."%char :: r) ->
  name <> [] -> ~ In "/"%char name -> (forall r, name <> "."%char :: r) -> (forall a b, place folder name <> a ++ $"://" ++ b) ->
  exists name', determine_mount_point translate categories (place folder name) = place folder name' /\ name' <> [] /\ ~ In "/"%char name' /\
    ((exists t, t <> [] /\ name = name' ++ t) \/ name' = name ++ $".mounted").
Proof. intros T. now apply mount_point_local. Qed.
Print Assumptions C48_beside_partial.

Theorem C48_beside_refuted :
  ~ (forall translate categories folder name,
       (forall p x, glob (translate ("."%char :: p)) x -> exists r, x = "."%char :: r) ->
       name <> [] -> ~ In "/"%char name -> (forall a b, place folder name <> a ++ $"://" ++ b) ->
       exists name', determine_mount_point translate categories (place folder name) = place folder name' /\ name' <> []).
Proof.
  intros H. destruct (H simple_translate some_categories (Some $"/home") $".tar.gz" simple_translate_dot) as (n & E & N).
  - discriminate.
  - cbn. intros I. repeat (destruct I as [I|I]; [discriminate I|]). exact I.
  - intros a b E. assert (contains $"://" (place (Some $"/home") $".tar.gz") = true) as C by (apply contains_spec; eauto). vm_compute in C. discriminate.
  - vm_compute in E. injection E as E. now apply N.
Qed.
Print Assumptions C48_beside_refuted.

(** A hidden file without suffix gets ".mounted" appended as well. *)
Theorem C48_hidden translate categories folder rest : ~ In "/"%char rest -> ~ In "."%char rest ->
  (forall a b, place folder ("."%char :: rest) <> a ++ $"://" ++ b) ->
  (forall r k, In r (compile_suffix_rules translate categories [$"/all/"]) -> ~ matches r ("."%char :: rest) k) ->
  determine_mount_point translate categories (place folder ("."%char :: rest)) = place folder ("."%char :: rest ++ $".mounted").
Proof. apply mount_point_hidden. Qed.
Print Assumptions C48_hidden.

Example C48_hidden_example :
  determine_mount_point simple_translate some_categories $"/a/.b" = $"/a/.b.mounted" /\
  (forall r k, In r (compile_suffix_rules simple_translate some_categories [$"/all/"]) -> ~ matches r $".b" k).
Proof.
  split; [vm_compute; reflexivity|]. intros r k I M. destruct (matches_end _ _ _ M) as (j & E & _).
  cbn in I. destruct I as [<-|[]]. vm_compute in E. discriminate.
Qed.

(** For a URL it is a name in the current folder: a prefix of the last component. *)
Theorem C48_url_partial translate categories folder name a b :
  (forall p x, glob (translate ("."%char :: p)) x -> exists r, x = "."%char :: r) ->
  ~ In "/"%char name -> folder ++ "/"%char :: name = a ++ $"://" ++ b ->
  exists name', determine_mount_point translate categories (folder ++ "/"%char :: name) = name' /\ (exists t, name = name' ++ t) /\
    (name <> [] -> (forall r, name <> "."%char :: r) -> name' <> []).
Proof. intros T. now apply mount_point_url. Qed.
Print Assumptions C48_url_partial.

(** With a slash at the end, the mount point is empty, which means the current folder. *)
Theorem C48_url_refuted :
  ~ (forall translate categories source a b, (forall p x, glob (translate ("."%char :: p)) x -> exists r, x = "."%char :: r) ->
       source = a ++ $"://" ++ b -> b <> [] -> determine_mount_point translate categories source <> []).
Proof.
  intros H. apply (H simple_translate some_categories $"https://host/dir/" $"https" $"host/dir/"); [exact simple_translate_dot|reflexivity|discriminate|].
  vm_compute. reflexivity.
Qed.
Print Assumptions C48_url_refuted.

Example C48_example :
  determine_mount_point simple_translate some_categories $"/a/b.tar.gz" = $"/a/b" /\
  determine_mount_point simple_translate some_categories $"/a.d/b.docx" = $"/a.d/b" /\
  determine_mount_point simple_translate some_categories $"/a.d/b" = $"/a.d/b.mounted" /\
  determine_mount_point simple_translate some_categories $"ftp://host/a/b.zip" = $"b".
Proof. repeat split; vm_compute; reflexivity. Qed.
