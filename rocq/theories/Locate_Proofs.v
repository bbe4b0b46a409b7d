(** Proofs about where indexes are looked for. *)
From Coq Require Import Ascii String.
From Verif Require Import PyBase PyStr Path_Model Path_Spec Path_Proofs Locate_Model Locate_Spec.

Lemma contains_spec p s : contains p s = true <-> exists a b, s = a ++ p ++ b.
Proof.
  induction s as [|c r IH]; cbn [contains]; rewrite orb_true_iff, starts_with_spec.
  - split; [intros [(t & E)|X]; [exists [], t; exact E|discriminate]|]. intros (a & b & E). destruct a; [|discriminate]. left. now exists b.
  - rewrite IH. split.
    + intros [(t & E)|(a & b & E)]; [exists [], t; exact E|]. exists (c :: a), b. now rewrite E.
    + intros ([|c' a] & b & E); [left; now exists b|]. right. cbn in E. injection E as -> E. now exists a, b.
Qed.
Lemma is_url_spec p : is_url p = true <-> url p.
Proof. apply contains_spec. Qed.
Lemma not_url p : ~ url p -> is_url p = false.
Proof. intros H. destruct (is_url p) eqn:E; [|reflexivity]. apply is_url_spec in E. now destruct H. Qed.
Lemma count_contains p s : (0 < count_sub p s)%nat -> contains p s = true.
Proof. induction s as [|c r IH]; cbn [contains count_sub]; destruct (starts_with p _); cbn; try reflexivity; [lia|]. exact IH. Qed.
Lemma count_not_url p : ~ url p -> Nat.eqb (count_sub $"://" p) 1 = false.
Proof. intros H. apply Nat.eqb_neq. intros E. apply H, is_url_spec. apply count_contains. rewrite E. lia. Qed.

Lemma flat_underscored a : underscored a (flat a).
Proof.
  unfold underscored, flat. induction a as [|c r IH]; cbn; constructor; [|exact IH]. unfold slash. destruct (char_eqb_spec c "/"%char); [now left|now right].
Qed.
Lemma underscored_fun a b : underscored a b -> b = flat a.
Proof.
  unfold underscored, flat. induction 1 as [|c d a b H _ IH]; [reflexivity|]. cbn. rewrite <- IH. f_equal. unfold slash. destruct H as [[E1 E2]|[N E2]]; subst; [reflexivity|].
  destruct (char_eqb_spec c "/"%char); [congruence|reflexivity].
Qed.
Lemma flat_no_slash a : ~ In slash (flat a).
Proof. unfold flat, slash. rewrite in_map_iff. intros (c & E & Hc). destruct (char_eqb_spec c "/"%char) as [X|N]; [discriminate|congruence]. Qed.
Lemma flat_length a : List.length (flat a) = List.length a.
Proof. unfold flat. apply map_length. Qed.
Lemma flat_proper a : (2 < List.length a)%nat -> proper_name (flat a).
Proof.
  intros H. rewrite <- flat_length in H. unfold proper_name. repeat split; try (intros E; rewrite E in H; cbn in H; lia). apply flat_no_slash.
Qed.

(** ** Paths *)
Lemma path_join_name f n : f <> [] -> proper_name n -> exists g, path_join f n = g ++ slash :: n /\ (g = f \/ f = g ++ [slash]).
Proof.
  intros Nf (N0 & _ & _ & Ns). unfold path_join. destruct (starts_with $"/" n) eqn:E.
  - apply starts_with_spec in E as (t & ->). destruct Ns. now left.
  - destruct (str_eqb_spec f []); [congruence|]. cbn [orb]. destruct (ends_with $"/" f) eqn:Ef.
    + apply ends_with_spec in Ef as (t & ->). exists t. split; [now rewrite <- app_assoc|now right].
    + exists f. split; [reflexivity|now left].
Qed.

Lemma denotes_trailing g : denotes (g ++ [slash]) = denotes g.
Proof. rewrite denotes_app_slash. reflexivity. Qed.

Lemma norm_last p n : proper_name n -> exists x, posix_normpath (p ++ slash :: n) = x ++ n.
Proof.
  intros P. pose proof P as (N0 & N1 & N2 & Ns). unfold posix_normpath. destruct (p ++ slash :: n) as [|c r] eqn:E; [destruct p; discriminate|]. rewrite <- E. clear E c r.
  set (s := if starts_with _ _ then _ else _). rewrite split_app_sep, (split_no_sep slash n Ns), fold_left_app. cbn [fold_left].
  set (acc := fold_left _ (split slash p) []). assert (norm_comp s acc n = acc ++ [n]) as ->.
  { unfold norm_comp. rewrite (proj2 (str_eqb_neq n []) N0), (proj2 (str_eqb_neq n $".") N1), (proj2 (str_eqb_neq n $"..") N2). reflexivity. }
  assert (exists y, join $"/" (acc ++ [n]) = y ++ n) as (y & ->).
  { destruct acc as [|a acc']; [exists []; reflexivity|]. rewrite join_app by discriminate. exists (join $"/" (a :: acc') ++ $"/"). now rewrite <- app_assoc. }
  rewrite app_assoc. destruct ((repeat slash s ++ y) ++ n) as [|c r] eqn:E; [|now exists (repeat slash s ++ y)]. apply app_eq_nil in E as [_ E]. congruence.
Qed.

Lemma norm_abs p : starts_with $"/" p = true -> denotes (posix_normpath p) = denotes p /\ starts_with $"/" (posix_normpath p) = true.
Proof.
  intros H. apply starts_with_spec in H as (t & ->). cbn [app list_ascii_of_string]. change "/"%char with slash. destruct (posix_normpath_abs t) as (n & E). rewrite E. clear E. split.
  - rewrite denotes_cons_slash. induction n as [|n IH]; cbn [repeat app]; rewrite denotes_cons_slash.
    + rewrite <- (denotes_cons_slash (join _ _)). change (slash :: join $"/" (denotes t)) with (written (denotes t)). apply denotes_written, denotes_proper.
    + exact IH.
  - reflexivity.
Qed.

Section Folders.
  Variable home : str -> option str.
  Variable cwd : str.
  Hypothesis cwd_absolute : starts_with $"/" cwd = true.
  Hypothesis home_absolute : forall u h, home u = Some h -> starts_with $"/" h = true.

  Lemma expanduser_other c p : c <> "~"%char -> expanduser home (c :: p) = c :: p.
  Proof. intros N. cbn. destruct (char_eqb_spec c "~"%char); [congruence|reflexivity]. Qed.
  Lemma expanduser_home user rest : ~ In slash user -> rest = [] \/ (exists r, rest = slash :: r) ->
    expanduser home ("~"%char :: user ++ rest) =
      match home ("~"%char :: user) with
      | None => "~"%char :: user ++ rest
      | Some h => if str_eqb (rstrip slash h ++ rest) [] then $"/" else rstrip slash h ++ rest
      end.
  Proof.
    intros N R. unfold expanduser. destruct (char_eqb_spec "~"%char "~"%char); [|congruence]. destruct R as [->|(r & ->)].
    - rewrite app_nil_r. assert (split1 slash ("~"%char :: user) = None) as ->. { apply split1_None. intros [X|X]; [discriminate|contradiction]. } reflexivity.
    - assert (split1 slash ("~"%char :: user ++ slash :: r) = Some ("~"%char :: user, r)) as ->. { apply split1_Some. split; [reflexivity|]. intros [X|X]; [discriminate|contradiction]. } reflexivity.
  Qed.

  Lemma denotes_rstrip h q : denotes (rstrip slash h ++ slash :: q) = denotes (h ++ slash :: q).
  Proof.
    rewrite !denotes_app_slash. f_equal. unfold rstrip. rewrite <- (rev_involutive h) at 2. generalize (rev h). clear. intros l. induction l as [|c r IH]; [reflexivity|].
    destruct (char_eqb_spec c slash) as [->|N]; [rewrite lstrip_sep; cbn [rev]; now rewrite denotes_trailing|]. now rewrite lstrip_id.
  Qed.

  Lemma snoc_slash_rest user rest g : ~ In slash user -> "~"%char :: user ++ rest = g ++ [slash] -> rest = [] \/ (exists r, rest = slash :: r) ->
    exists rest', rest = rest' ++ [slash] /\ g = "~"%char :: user ++ rest' /\ (rest' = [] \/ exists r, rest' = slash :: r).
  Proof.
    intros N E [->|(r & ->)].
    - exfalso. rewrite app_nil_r in E. assert (In slash ("~"%char :: user)) as [X|X] by (rewrite E; apply in_or_app; right; now left); [discriminate|contradiction].
    - destruct (exists_last (l := slash :: r)) as (r' & c & Er); [discriminate|]. rewrite Er in E. rewrite app_comm_cons, app_assoc in E. apply app_inj_tail in E as [<- ->].
      exists r'. split; [exact Er|]. split; [reflexivity|]. destruct r' as [|c r']; [now left|right]. injection Er as <- _. now exists r'.
  Qed.
  Lemma full_trailing g full : full_folder home cwd (g ++ [slash]) full -> (g = [] /\ full = [slash]) \/ exists full', full_folder home cwd g full' /\ full = full' ++ [slash].
  Proof.
    intros F. remember (g ++ [slash]) as f eqn:E. destruct F as [f|h user rest Nu Hh R|user rest Nu Hh R|c f N1 N2].
    - destruct g as [|c g]; [injection E as ->; now left|]. cbn in E. injection E as <- ->. right. exists (slash :: g). split; [constructor|reflexivity].
    - destruct (snoc_slash_rest user rest g Nu E R) as (rest' & -> & -> & R'). right. exists (h ++ rest'). split; [now constructor|now rewrite app_assoc].
    - destruct (snoc_slash_rest user rest g Nu E R) as (rest' & -> & -> & R'). right. exists (cwd ++ $"/" ++ "~"%char :: user ++ rest'). split; [now constructor|]. now rewrite <- !app_assoc, <- app_comm_cons, <- app_assoc.
    - destruct g as [|c' g]; [injection E as E _; destruct N1; exact E|]. cbn in E. injection E as <- ->. right. exists (cwd ++ $"/" ++ c :: g). split; [now constructor|]. now rewrite <- !app_assoc.
  Qed.

  Lemma denotes_cwd q : starts_with $"/" q = false -> denotes (path_join cwd q) = denotes (cwd ++ $"/" ++ q) /\ starts_with $"/" (path_join cwd q) = true.
  Proof.
    intros Sq. unfold path_join. rewrite Sq. destruct (str_eqb_spec cwd []) as [X|_]; [rewrite X in cwd_absolute; discriminate|]. cbn [orb].
    assert (forall r, starts_with $"/" (cwd ++ r) = true) as A. { intros r. apply starts_with_spec in cwd_absolute as (t & ->). apply starts_with_spec. exists (t ++ r). now rewrite <- app_assoc. }
    split; [|destruct (ends_with _ _); apply A]. destruct (ends_with $"/" cwd) eqn:Ee; [|reflexivity]. apply ends_with_spec in Ee as (t & ->). change $"/" with [slash]. rewrite <- !app_assoc. cbn [app].
    rewrite !denotes_app_slash, split_cons_sep. reflexivity.
  Qed.

  Lemma abspath_last q x n : q = x ++ slash :: n -> proper_name n -> exists y, abspath cwd q = y ++ n.
  Proof.
    intros -> P. unfold abspath. destruct (starts_with $"/" (x ++ slash :: n)) eqn:E; [now apply norm_last|]. unfold path_join. rewrite E.
    destruct (_ || _); rewrite ?app_assoc; now apply norm_last.
  Qed.

  Lemma abspath_denotes q : True -> denotes (abspath cwd q) = denotes (if starts_with $"/" q then q else cwd ++ $"/" ++ q) /\ starts_with $"/" (abspath cwd q) = true.
  Proof.
    intros _. unfold abspath. destruct (starts_with $"/" q) eqn:Sq; [now apply norm_abs|]. destruct (denotes_cwd q Sq) as [D A]. destruct (norm_abs _ A) as [D' A']. split; [congruence|exact A'].
  Qed.

  Lemma rstrip_split s : exists z, s = rstrip slash s ++ z.
  Proof.
    assert (forall l, exists z, rev l = rev (lstrip slash l) ++ z) as H.
    { induction l as [|c r (z & IH)]; [now exists []|]. destruct (char_eqb_spec c slash) as [->|N]; [|exists []; now rewrite lstrip_id, app_nil_r].
      rewrite lstrip_sep. cbn [rev]. rewrite IH. exists (z ++ [slash]). now rewrite app_assoc. }
    destruct (H (rev s)) as (z & E). rewrite rev_involutive in E. now exists z.
  Qed.
  Lemma rstrip_absolute h rest : starts_with $"/" h = true -> starts_with $"/" (rstrip slash h ++ slash :: rest) = true.
  Proof.
    intros H. apply starts_with_spec in H as (t & ->). change ($"/" ++ t) with (slash :: t). destruct (destruct_list (rstrip slash (slash :: t))) as [(c & r & E)|E].
    - rewrite E. cbn. assert (c = slash) as ->; [|reflexivity]. assert (exists z, slash :: t = rstrip slash (slash :: t) ++ z) as (z & Ez) by apply rstrip_split.
      rewrite E in Ez. injection Ez as ->. reflexivity.
    - rewrite E. reflexivity.
  Qed.

  (** the file with the given name in a folder *)
  Lemma folder_core f full n : full_folder home cwd f full -> proper_name n ->
    let p := abspath cwd (expanduser home (f ++ slash :: n)) in
    starts_with $"/" p = true /\ denotes p = denotes full ++ [n] /\ exists x, p = x ++ n.
  Proof.
    intros F P. cbv zeta. destruct F as [f|h user rest Nu Hh R|user rest Nu Hh R|c f N1 N2].
    - cbn [app]. rewrite expanduser_other by discriminate. destruct (abspath_denotes ("/"%char :: f ++ slash :: n) I) as [D A]. split; [exact A|]. rewrite D. cbn [starts_with list_ascii_of_string char_eqb Ascii.eqb Bool.eqb andb].
      change "/"%char with slash. rewrite app_comm_cons. split; [now apply denotes_child|]. now apply (abspath_last _ (slash :: f) n).
    - rewrite <- app_comm_cons, <- app_assoc. rewrite expanduser_home; [|exact Nu|destruct R as [->|(r & ->)]; right; [now exists n|now exists (r ++ slash :: n)]]. rewrite Hh.
      assert (exists q, rest ++ slash :: n = slash :: q) as (q & Eq) by (destruct R as [->|(r & ->)]; [now exists n|now exists (r ++ slash :: n)]).
      destruct (str_eqb_spec (rstrip slash h ++ rest ++ slash :: n) []) as [X|_]; [rewrite Eq in X; destruct (rstrip slash h); discriminate|].
      destruct (abspath_denotes (rstrip slash h ++ rest ++ slash :: n) I) as [D A]. split; [exact A|]. rewrite D. split; [|apply (abspath_last _ (rstrip slash h ++ rest) n); [now rewrite app_assoc|exact P]].
      rewrite Eq, (rstrip_absolute h q (home_absolute _ _ Hh)), denotes_rstrip, <- Eq, app_assoc. now apply denotes_child.
    - rewrite <- app_comm_cons, <- app_assoc. rewrite expanduser_home; [|exact Nu|destruct R as [->|(r & ->)]; right; [now exists n|now exists (r ++ slash :: n)]]. rewrite Hh.
      destruct (abspath_denotes ("~"%char :: user ++ rest ++ slash :: n) I) as [D A]. split; [exact A|]. rewrite D. cbn [starts_with list_ascii_of_string char_eqb Ascii.eqb Bool.eqb andb].
      split; [|apply (abspath_last _ ("~"%char :: user ++ rest) n); [now rewrite <- app_comm_cons, <- app_assoc|exact P]].
      rewrite <- (denotes_child _ n P). f_equal. rewrite <- !app_assoc. cbn. now rewrite <- app_assoc.
    - cbn [app]. rewrite expanduser_other by exact N2. destruct (abspath_denotes (c :: f ++ slash :: n) I) as [D A]. split; [exact A|]. rewrite D.
      assert (starts_with $"/" (c :: f ++ slash :: n) = false) as ->. { cbn [starts_with list_ascii_of_string]. destruct (char_eqb_spec "/"%char c); [congruence|reflexivity]. }
      split; [|now apply (abspath_last _ (c :: f) n)]. rewrite <- (denotes_child _ n P). f_equal. now rewrite <- !app_assoc.
  Qed.

  Lemma folder_file f full n : full_folder home cwd f full -> proper_name n ->
    let p := abspath cwd (expanduser home (path_join f n)) in
    starts_with $"/" p = true /\ denotes p = denotes full ++ [n] /\ exists x, p = x ++ n.
  Proof.
    intros F P. cbv zeta. assert (f <> []) as Nf by (destruct F; discriminate). destruct (path_join_name f n Nf P) as (g & E & G). rewrite E.
    destruct G as [-> | ->]; [now apply folder_core|]. destruct (full_trailing g full F) as [[-> ->]|(full' & F' & ->)].
    - cbn [app]. rewrite expanduser_other by discriminate. destruct (abspath_denotes (slash :: n) I) as [D A]. split; [exact A|]. rewrite D. split; [|now apply (abspath_last _ [] n)].
      change (starts_with $"/" (slash :: n)) with true. cbv iota. exact (denotes_child [] n P).
    - rewrite denotes_trailing. now apply folder_core.
  Qed.
End Folders.

(** ** Candidates *)
Section Candidates.
  Context {C : Type}.
  Variable size : C -> Z.
  Variable home : str -> option str.
  Variable cwd : str.
  Variable extensions : list str.

  Lemma possible_explicit fs i folders archive ignore : i <> [] -> i <> memory -> ~ url i ->
    possible_paths size home cwd extensions fs (Some i) folders archive ignore = [abspath cwd (expanduser home i)].
  Proof.
    intros N M U. unfold possible_paths. destruct i as [|c r] eqn:E; [congruence|]. rewrite <- E in *. clear E c r. destruct (str_eqb_spec i memory); [congruence|]. now rewrite (not_url _ U).
  Qed.

  Lemma default_longer fs d p : In p (default_paths size extensions fs d) -> (List.length d <= List.length p)%nat.
  Proof.
    unfold default_paths. intros [<-|H]; [lia|]. apply filter_In in H as [H _]. apply in_map_iff in H as (e & <- & _). rewrite app_length. lia.
  Qed.

  Lemma archive_not_candidate fs folders a ignore : a <> memory ->
    ~ In a (possible_paths size home cwd extensions fs None folders (Some a) ignore).
  Proof.
    intros M H. unfold possible_paths in H. destruct a as [|c0 r0] eqn:Ea; [destruct H|]. rewrite <- Ea in *. clear Ea c0 r0.
    assert (List.length (a ++ $".index.sqlite") = List.length a + 13)%nat as L by (rewrite app_length; reflexivity).
    assert (~ In a (default_paths size extensions fs (a ++ $".index.sqlite"))) as D. { intros X. apply default_longer in X. lia. }
    destruct folders as [|f0 fr].
    - cbn [app] in H. apply in_app_or in H as [H|[H|[]]]; [contradiction|congruence].
    - cbn [app] in H. apply in_flat_map in H as (f & _ & H). destruct f as [|c f]; [destruct ignore; [destruct H|contradiction]|]. destruct H as [H|[]].
      assert (proper_name (flat (a ++ $".index.sqlite"))) as P by (apply flat_proper; lia). destruct (path_join_name (c :: f) _ ltac:(discriminate) P) as (g & E & _). rewrite E in H.
      assert (exists x, expanduser home (g ++ slash :: flat (a ++ $".index.sqlite")) = x ++ slash :: flat (a ++ $".index.sqlite")) as (x & Ex).
      { destruct g as [|c1 g]; [exists []; apply expanduser_other; discriminate|]. destruct (ascii_dec c1 "~"%char) as [->|N]; [|exists (c1 :: g); now apply expanduser_other].
        destruct (split1 slash g) as [[u r]|] eqn:Es.
        - apply split1_Some in Es as [-> Nu]. cbn [app]. rewrite <- app_assoc. rewrite (expanduser_home home u) by (try exact Nu; right; eexists; reflexivity). destruct (home _) as [h|].
          + destruct (str_eqb_spec (rstrip slash h ++ (slash :: r) ++ slash :: flat (a ++ $".index.sqlite")) []) as [X|_]; [destruct (rstrip slash h); discriminate|]. exists (rstrip slash h ++ slash :: r). now rewrite <- app_assoc.
          + exists ("~"%char :: u ++ slash :: r). cbn. now rewrite <- app_assoc.
        - apply split1_None in Es. cbn [app]. rewrite (expanduser_home home g) by (try exact Es; right; eexists; reflexivity). destruct (home _) as [h|].
          + destruct (str_eqb_spec (rstrip slash h ++ slash :: flat (a ++ $".index.sqlite")) []) as [X|_]; [destruct (rstrip slash h); discriminate|]. now exists (rstrip slash h).
          + now exists ("~"%char :: g). }
      destruct (abspath_last cwd _ x _ Ex P) as (y & Ey). rewrite Ey in H. assert (List.length a = List.length (y ++ flat (a ++ $".index.sqlite"))) as X by now rewrite H. rewrite app_length, flat_length in X. lia.
  Qed.
End Candidates.

(** ** Loading and creating *)
Section Loading.
  Context {C : Type}.
  Variable removable : str -> bool.
  Variable undo : C -> undone C.
  Variable fetch : str -> res C.
  Variable verdict : C -> res unit.
  Notation load := (load_index undo fetch verdict).
  Notation try_load := (try_load_index removable undo fetch verdict).
  Notation existing := (open_existing removable undo fetch verdict).

  Lemma put_same (fs : filesystem) p (o : option C) : put fs p o p = o.
  Proof. unfold put. now rewrite str_eqb_refl. Qed.
  Lemma put_other (fs : filesystem) p (o : option C) q : q <> p -> put fs p o q = fs q.
  Proof. intros N. unfold put. now rewrite (proj2 (str_eqb_neq q p) N). Qed.

  Lemma load_database_disk (st : state) p c : disk (snd (load_database verdict st p c)) = disk st /\ read_only (snd (load_database verdict st p c)) = read_only st /\ prefer_memory (snd (load_database verdict st p c)) = prefer_memory st.
  Proof. unfold load_database. destruct (match temporary st with Some t => Some t | None => c end); [|easy]. destruct (verdict c0); easy. Qed.
  Lemma load_disk (st : state) p : disk (snd (load st p)) = disk st /\ read_only (snd (load st p)) = read_only st.
  Proof.
    unfold load_index. destruct (connection st); [easy|]. set (q := if Nat.eqb (count_sub $"://" p) 1 then removeprefix $"file://" p else p). destruct (is_url q).
    - destruct (fetch q) as [c|e]; [|easy]. destruct (undo c) as [|e|c' [e|]]; try easy.
      + destruct (load_database_disk (with_temporary st (Some c)) q None) as (-> & -> & _). easy.
      + destruct (load_database_disk (with_temporary st (Some c')) q None) as (-> & -> & _). easy.
    - destruct (disk st q) as [c|]; [|easy]. destruct (undo c) as [|e|c' [e|]]; try easy.
      + destruct (load_database_disk st q (Some c)) as (-> & -> & _). easy.
      + destruct (load_database_disk (with_temporary st (Some c')) q None) as (-> & -> & _). easy.
  Qed.

  Lemma remove_disk (fs : filesystem (C := C)) p q : snd (os_remove removable fs p) q = if str_eqb q p && removable p then None else fs q.
  Proof.
    unfold os_remove. destruct (fs p) eqn:E; [destruct (removable p)|]; cbn [snd].
    - unfold put. destruct (str_eqb q p); reflexivity.
    - now rewrite andb_false_r.
    - destruct (str_eqb_spec q p) as [->|]; [|reflexivity]. rewrite E. now destruct (_ && _).
  Qed.

  Lemma try_load_disk (st : state) p q : q <> p \/ read_only st = true -> disk (snd (try_load st p)) q = disk st q /\ read_only (snd (try_load st p)) = read_only st.
  Proof.
    intros N. unfold try_load_index. destruct (is_loaded st); [easy|]. pose proof (load_disk st p) as [D R]. destruct (load st p) as [[u|e] st'] eqn:E; cbn [snd] in D, R; [cbn [snd]; now rewrite D, R|].
    assert (let st'' := if negb (read_only st') && negb (is_url p) then with_disk st' (snd (os_remove removable (disk st') p)) else st' in disk st'' q = disk st q /\ read_only st'' = read_only st) as X.
    { cbv zeta. destruct (negb (read_only st') && negb (is_url p)) eqn:Eb; [|now rewrite D, R]. cbn [with_disk disk read_only]. rewrite remove_disk, R, D. split; [|reflexivity]. destruct N as [N|N].
      - now rewrite (proj2 (str_eqb_neq q p) N).
      - rewrite R, N in Eb. discriminate. }
    destruct e; cbn [snd]; solve [exact X|now rewrite D, R].
  Qed.

  Lemma existing_disk paths : forall (st : state) q, ~ In q paths \/ read_only st = true -> disk (snd (existing st paths)) q = disk st q /\ read_only (snd (existing st paths)) = read_only st.
  Proof.
    induction paths as [|p ps IH]; intros st q N; cbn [open_existing]; [easy|].
    destruct (try_load_disk st p q) as [D R]. { destruct N as [N|N]; [left; intros ->; apply N; now left|now right]. }
    destruct (try_load st p) as [[[|]|e] st']; cbn [snd] in *; [split; assumption| |split; assumption].
    destruct (IH st' q) as [D' R']. { destruct N as [N|N]; [left; intros X; apply N; now right|right; congruence]. } split; congruence.
  Qed.

  (** an existing plain candidate that is not accepted *)
  Definition unfit (fs : filesystem) (p : str) : Prop :=
    fs p = None \/ exists c e, fs p = Some c /\ undo c = Plain /\ verdict c = Err e /\ e <> MismatchingIndexError.

  Lemma try_load_unfit (st : state) p : connection st = None -> temporary st = None -> ~ url p -> unfit (disk st) p ->
    exists st', try_load st p = (Ok false, st') /\ connection st' = None /\ temporary st' = None /\ read_only st' = read_only st /\ prefer_memory st' = prefer_memory st /\
      forall q, disk st' q = if str_eqb q p && (removable p && negb (read_only st)) then None else disk st q.
  Proof.
    intros Hc Ht U F. unfold try_load_index, is_loaded. rewrite Hc. unfold load_index. rewrite Hc, (count_not_url p U), (not_url p U). destruct F as [F|(c & e & F & P & V & M)]; rewrite F.
    - eexists. split; [rewrite Hc; reflexivity|]. rewrite Hc, Ht. repeat split. intros q. destruct (str_eqb_spec q p) as [->|]; [|reflexivity]. rewrite F. now destruct (_ && _).
    - rewrite P. unfold load_database. rewrite Ht, V.
      set (st1 := mkState _ _ _ _ _ _).
      assert (exists st', (let st'' := if negb (read_only st1) && negb false then with_disk st1 (snd (os_remove removable (disk st1) p)) else st1 in (Ok match connection st'' with Some _ => true | None => false end, st'')) = (Ok false, st') /\
        connection st' = None /\ temporary st' = None /\ read_only st' = read_only st /\ prefer_memory st' = prefer_memory st /\
        forall q, disk st' q = if str_eqb q p && (removable p && negb (read_only st)) then None else disk st q) as X.
      { cbv zeta. subst st1. cbn [read_only]. destruct (read_only st) eqn:R; cbn [negb andb].
        - eexists. split; [reflexivity|]. cbn. repeat split; try assumption. intros q. now rewrite !andb_false_r.
        - eexists. split; [reflexivity|]. cbn [with_disk disk connection temporary read_only prefer_memory]. repeat split; try assumption. intros q. rewrite remove_disk. now rewrite andb_true_r. }
      destruct e; solve [exact X|congruence].
  Qed.

  Lemma existing_skip : forall before (st : state) rest, connection st = None -> temporary st = None ->
    (forall p, In p before -> ~ url p) -> (forall p, In p before -> unfit (disk st) p) ->
    exists st', existing st (before ++ rest) = existing st' rest /\ connection st' = None /\ temporary st' = None /\ read_only st' = read_only st /\ prefer_memory st' = prefer_memory st /\
      without (fun p => removable p && negb (read_only st)) before (disk st) (disk st').
  Proof.
    induction before as [|p ps IH]; intros st rest Hc Ht U F; cbn [app].
    - exists st. repeat split; try assumption. intros [].
    - destruct (try_load_unfit st p Hc Ht (U p (or_introl eq_refl)) (F p (or_introl eq_refl))) as (st1 & E & C1 & T1 & R1 & M1 & D1).
      assert (forall q, In q ps -> unfit (disk st1) q) as F1.
      { intros q Iq. unfold unfit. rewrite D1. destruct (str_eqb q p && _); [now left|]. apply F. now right. }
      destruct (IH st1 rest C1 T1 (fun q Iq => U q (or_intror Iq)) F1) as (st' & E' & C' & T' & R' & M' & W). cbn [open_existing]. rewrite E. exists st'. repeat split; try congruence.
      + intros N. rewrite (proj1 (W p0)) by (intros X; apply N; now right). rewrite D1. destruct (str_eqb_spec p0 p) as [->|]; [|reflexivity]. destruct N. now left.
      + rewrite R1 in W. intros Ip. destruct (in_dec (list_eq_dec ascii_dec) p0 ps) as [I|I].
        * rewrite (proj2 (W p0) I), D1. destruct (removable p0 && negb (read_only st)) eqn:Er; [reflexivity|]. destruct (str_eqb_spec p0 p) as [->|]; [|reflexivity]. now rewrite Er.
        * destruct Ip as [->|Ip]; [|contradiction]. rewrite (proj1 (W p0) I), D1, str_eqb_refl. reflexivity.
  Qed.

  Lemma existing_good (st : state) c after d d' : connection st = None -> temporary st = None -> ~ url c -> disk st c = Some d ->
    (undo d = Plain /\ d' = d) \/ undo d = Copied d' None ->
    (verdict d' = Ok tt -> exists st', existing st (c :: after) = (Ok tt, st') /\ connection st' = Some d' /\ opened st' = (match undo d with Plain => OnDisk c | _ => Temporary end) /\ disk st' = disk st) /\
    (verdict d' = Err MismatchingIndexError -> exists st', existing st (c :: after) = (Err MismatchingIndexError, st') /\ connection st' = None /\ disk st' = disk st).
  Proof.
    intros Hc Ht U D K. cbn [open_existing]. unfold try_load_index, is_loaded. rewrite Hc. unfold load_index. rewrite Hc, (count_not_url c U), (not_url c U), D. destruct K as [[P ->]|P]; rewrite P.
    - unfold load_database. rewrite Ht. split; intros V; rewrite V; cbn [connection]; eexists; repeat split.
    - unfold load_database. cbn [temporary with_temporary]. split; intros V; rewrite V; cbn [connection]; eexists; repeat split.
  Qed.

  Lemma clear_disk paths : forall (fs : filesystem (C := C)) q, ~ In q paths -> snd (clear_indexes removable fs paths) q = fs q.
  Proof.
    induction paths as [|p ps IH]; intros fs q N; cbn [clear_indexes]; [reflexivity|]. assert (~ In q ps) as N' by (intros X; apply N; now right).
    destruct (negb (str_eqb p []) && _); [|now apply IH]. pose proof (remove_disk fs p q) as R. destruct (os_remove removable fs p) as [[u|e] fs']; cbn [snd] in *.
    - rewrite IH by exact N'. rewrite R. destruct (str_eqb_spec q p) as [->|]; [|reflexivity]. destruct N. now left.
    - rewrite R. destruct (str_eqb_spec q p) as [->|]; [|reflexivity]. destruct N. now left.
  Qed.
  Lemma clear_all paths : forall (fs : filesystem (C := C)) fs', clear_indexes removable fs paths = (Ok tt, fs') -> forall p, In p paths -> p <> [] -> fs' p = None.
  Proof.
    assert (forall ps (fs : filesystem (C := C)) p, fs p = None -> snd (clear_indexes removable fs ps) p = None) as K.
    { induction ps as [|q qs IH]; intros fs p H; cbn [clear_indexes]; [exact H|]. destruct (negb (str_eqb q []) && _); [|now apply IH]. pose proof (remove_disk fs q p) as R.
      destruct (os_remove removable fs q) as [[u|e] fs1]; cbn [snd] in *; [apply IH|]; rewrite R, H; now destruct (_ && _). }
    induction paths as [|q qs IH]; intros fs fs' E p I N; [destruct I|]. cbn [clear_indexes] in E. destruct I as [->|I].
    - destruct (fs p) as [c|] eqn:Ep.
      + rewrite (proj2 (str_eqb_neq p []) N) in E. cbn [negb andb] in E. unfold os_remove in E. rewrite Ep in E. destruct (removable p); [|discriminate]. pose proof (K qs (put fs p None) p (put_same _ _ _)) as X. now rewrite E in X.
      + rewrite andb_false_r in E. pose proof (K qs fs p Ep) as X. now rewrite E in X.
    - destruct (negb (str_eqb q []) && _); [|now apply (IH fs)]. destruct (os_remove removable fs q) as [[u|e] fs1]; [|discriminate]. now apply (IH fs1).
  Qed.

  Lemma existing_none paths : forall st : state, connection st = None -> temporary st = None -> (forall p, In p paths -> ~ url p) ->
    (forall p d, In p paths -> disk st p = Some d -> undo d = Plain) ->
    forall st', existing st paths = (Ok tt, st') -> connection st' = None -> forall p, In p paths -> unfit (disk st) p.
  Proof.
    induction paths as [|p ps IH]; intros st Hc Ht U P st' E N q Iq; [destruct Iq|].
    assert (unfit (disk st) p) as F.
    { unfold unfit. destruct (disk st p) as [d|] eqn:Ed; [|now left]. right. pose proof (P p d (or_introl eq_refl) Ed) as Pd.
      destruct (existing_good st p ps d d Hc Ht (U p (or_introl eq_refl)) Ed (or_introl (conj Pd eq_refl))) as [G1 G2]. destruct (verdict d) as [[]|e] eqn:V.
      - destruct (G1 eq_refl) as (st1 & E1 & C1 & _). rewrite E in E1. injection E1 as <-. congruence.
      - exists d, e. repeat split; try assumption. intros ->. destruct (G2 eq_refl) as (st1 & E1 & _). rewrite E in E1. discriminate. }
    destruct Iq as [<-|Iq]; [exact F|].
    destruct (try_load_unfit st p Hc Ht (U p (or_introl eq_refl)) F) as (st1 & E1 & C1 & T1 & R1 & M1 & D1). cbn [open_existing] in E. rewrite E1 in E.
    destruct (list_eq_dec ascii_dec q p) as [->|Nq]; [exact F|].
    assert (unfit (disk st1) q) as F1.
    { apply (IH st1 C1 T1 (fun r Ir => U r (or_intror Ir))) with (st' := st'); try assumption. intros r d Ir Er. rewrite D1 in Er. destruct (str_eqb r p && _); [discriminate|]. apply (P r); [now right|exact Er]. }
    unfold unfit in F1 |- *. rewrite D1 in F1. now rewrite (proj2 (str_eqb_neq q p) Nq) in F1.
  Qed.
End Loading.

(** ** Creating *)
Section Creating.
  Context {C : Type}.
  Variable size : C -> Z.
  Variable write : str -> write_result C.
  Variable sql_usable : str -> bool.
  Variable fresh : C.
  Notation usable := (can_be_used size write sql_usable).
  Notation find := (find_usable size write sql_usable).
  Notation create := (open_writable size write sql_usable fresh).

  (** a new database can be created at the path *)
  Definition fit (fs : filesystem) (p : str) : Prop :=
    ~ url p /\ (forall c, fs p = Some c -> (size c <= 0)%Z) /\ write p = Written /\ sql_usable p = true.

  Lemma usable_disk fs p q : q <> p -> snd (usable fs p) q = fs q.
  Proof.
    intros N. unfold can_be_used, ensure_writable_path. destruct (is_url p); [reflexivity|]. destruct (match fs p with Some c => _ | None => _ end); [reflexivity|].
    destruct (write p); cbn [snd]; rewrite ?put_other by exact N; reflexivity.
  Qed.
  Lemma usable_kept fs p q c : fs q = Some c -> (0 < size c)%Z -> snd (usable fs p) q = Some c.
  Proof.
    intros E S. destruct (list_eq_dec ascii_dec q p) as [->|N]; [|now rewrite usable_disk]. unfold can_be_used, ensure_writable_path. destruct (is_url p); [exact E|]. rewrite E. replace (0 <? size c)%Z with true by lia. exact E.
  Qed.
  Lemma usable_fit fs p : (fst (usable fs p) = true <-> fit fs p) /\ (fst (usable fs p) = true -> snd (usable fs p) p = None).
  Proof.
    unfold can_be_used, ensure_writable_path, fit. destruct (is_url p) eqn:U.
    - apply is_url_spec in U. split; [split; [discriminate|intros [N _]; contradiction]|discriminate].
    - assert (~ url p) as NU by (intros X; apply is_url_spec in X; congruence). destruct (match fs p with Some c => _ | None => _ end) eqn:S; cbn [fst snd].
      + split; [split; [discriminate|]|discriminate]. intros (_ & H & _). destruct (fs p) as [c|]; [|discriminate]. specialize (H c eq_refl). lia.
      + assert (forall c, fs p = Some c -> (size c <= 0)%Z) as S'. { intros c E. rewrite E in S. lia. }
        destruct (write p); cbn [fst snd]; (split; [split; [|intros (_ & _ & W & Q)]|]); try discriminate; try easy. intros _. apply put_same.
  Qed.

  Lemma find_disk paths : forall fs q, ~ In q paths -> snd (find fs paths) q = fs q.
  Proof.
    induction paths as [|p ps IH]; intros fs q N; cbn [find_usable]; [reflexivity|]. assert (q <> p /\ ~ In q ps) as [N1 N2] by (split; intros X; apply N; [now left|now right]).
    pose proof (usable_disk fs p q N1) as D. destruct (usable fs p) as [[|] fs']; cbn [snd] in *; [exact D|]. now rewrite IH.
  Qed.
  Lemma find_kept paths : forall fs q c, fs q = Some c -> (0 < size c)%Z -> snd (find fs paths) q = Some c.
  Proof.
    induction paths as [|p ps IH]; intros fs q c E S; cbn [find_usable]; [exact E|]. pose proof (usable_kept fs p q c E S) as D. destruct (usable fs p) as [[|] fs']; cbn [snd] in *; [exact D|]. now apply IH.
  Qed.
  (** trying a path changes whether others are fit only if it is the same path *)
  Lemma fit_other fs p q : fst (usable fs p) = false -> (fit (snd (usable fs p)) q -> fit fs q) /\ (q <> p -> fit fs q -> fit (snd (usable fs p)) q).
  Proof.
    intros E. split.
    - intros F. destruct (list_eq_dec ascii_dec q p) as [->|N].
      + exfalso. destruct F as (U & S & W & Q). unfold can_be_used, ensure_writable_path in *. rewrite (not_url p U), W in *. destruct (match fs p with Some c => _ | None => _ end) eqn:Z; cbn [fst snd] in *; [|congruence].
        destruct (fs p) as [c|]; [|discriminate]. specialize (S c eq_refl). lia.
      + destruct F as (U & S & W & Q). rewrite (usable_disk fs p q N) in S. repeat split; assumption.
    - intros N (U & S & W & Q). repeat split; try assumption. now rewrite (usable_disk fs p q N).
  Qed.
  Lemma find_first paths : forall fs,
    match fst (find fs paths) with
    | Some p => exists before after, paths = before ++ p :: after /\ (forall q, In q before -> ~ fit fs q) /\ fit fs p /\ snd (find fs paths) p = None
    | None => forall p, In p paths -> ~ fit fs p
    end.
  Proof.
    induction paths as [|p ps IH]; intros fs; cbn [find_usable]; [intros p []|]. pose proof (usable_fit fs p) as [U1 U2]. destruct (usable fs p) as [[|] fs'] eqn:E; cbn [fst snd] in *.
    - exists [], ps. split; [reflexivity|]. split; [intros q []|]. split; [now apply U1|now apply U2].
    - assert (~ fit fs p) as Np. { intros X. apply U1 in X. discriminate. }
      pose proof (fun q => fit_other fs p q) as O. rewrite E in O. cbn [fst snd] in O. specialize (IH fs'). destruct (find fs' ps) as [[q|] fs2]; cbn [fst snd] in *.
      + destruct IH as (before & after & -> & H1 & H2 & H3). exists (p :: before), after. split; [reflexivity|]. split; [|split; [apply (proj1 (O q eq_refl) H2)|exact H3]].
        intros r [<-|Ir]; [exact Np|]. intros Fr. destruct (list_eq_dec ascii_dec r p) as [->|N]; [contradiction|]. apply (H1 r Ir). now apply O.
      + intros r [<-|Ir]; [exact Np|]. intros Fr. destruct (list_eq_dec ascii_dec r p) as [->|N]; [contradiction|]. apply (IH r Ir). now apply O.
  Qed.

  Lemma find_cases paths : forall fs q, snd (find fs paths) q = fs q \/ snd (find fs paths) q = None \/ exists c, write q = Cut c /\ snd (find fs paths) q = Some c.
  Proof.
    induction paths as [|p ps IH]; intros fs q; cbn [find_usable]; [now left|].
    assert (snd (usable fs p) q = fs q \/ snd (usable fs p) q = None \/ exists c, write q = Cut c /\ snd (usable fs p) q = Some c) as D.
    { destruct (list_eq_dec ascii_dec q p) as [->|N]; [|left; now apply usable_disk]. unfold can_be_used, ensure_writable_path. destruct (is_url p); [now left|].
      destruct (match fs p with Some c => _ | None => _ end); [now left|]. destruct (write p) as [| |c]; cbn [snd]; rewrite ?put_same; [now right; left|now left|right; right; now exists c]. }
    destruct (usable fs p) as [[|] fs']; cbn [snd] in *; [exact D|]. destruct (IH fs' q) as [E|[E|E]]; rewrite ?E; [exact D|now right; left|right; right]. exact E.
  Qed.

  Lemma create_found st paths st' c : read_only st = false -> prefer_memory st = false -> connection st = None -> create st paths = (Ok tt, st') -> opened st = Nowhere -> opened st' = OnDisk c ->
    exists before after, paths = before ++ c :: after /\ (forall q, In q before -> ~ fit (disk st) q) /\ fit (disk st) c /\ disk st' c = Some fresh /\ connection st' = Some fresh /\
    forall q, q <> c -> disk st' q = snd (find (disk st) paths) q.
  Proof.
    intros R M Hc E O O'. unfold open_writable in E. rewrite R, M in E. destruct paths as [|p0 ps0]; [cbn in E; injection E as <-; discriminate|]. remember (p0 :: ps0) as paths eqn:Ep. clear Ep.
    pose proof (find_first paths (disk st)) as F. destruct (find (disk st) paths) as [[p|] fs] eqn:Ef; cbn [fst snd] in *.
    - destruct (str_eqb p memory); cbn in E; injection E as <-; cbn in O'; [discriminate|]. injection O' as ->. destruct F as (before & after & -> & F1 & F2 & F3). exists before, after.
      repeat split; try assumption; try apply put_same; try (now apply F2). intros q N. now apply put_other.
    - unfold is_loaded in E. cbn in E. rewrite Hc in E. discriminate.
  Qed.
End Creating.
