(** C115: which arguments are accepted as mount sources.  C116: unmounting. *)
From Coq Require Import Ascii String.
From Verif Require Import PyBase PyStr Format_Model Check_Model.
Local Open Scope Z_scope.

(** * Specification *)

(** [a] is what comes before the first occurrence of [sep], [b] what comes behind it. *)
Definition first_cut (sep s a b : str) : Prop :=
  s = a ++ sep ++ b /\ forall a' b', s = a' ++ sep ++ b' -> (List.length a <= List.length a')%nat.
(** The pieces between the separators, searched from the left. *)
Inductive pieces (sep : str) : str -> list str -> Prop :=
| pieces_last s : (forall a b, s <> a ++ sep ++ b) -> pieces sep s [s]
| pieces_cons s a b l : first_cut sep s a b -> pieces sep b l -> pieces sep s (a :: l).

Lemma memb_in x l : memb x l = true <-> In x l.
Proof. unfold memb. rewrite existsb_exists. split; [intros (y & I & E); apply str_eqb_eq in E; now subst|intros I; exists x; split; [exact I|apply str_eqb_refl]]. Qed.
Lemma intersects_iff a b : intersects a b = true <-> exists x, In x a /\ In x b.
Proof. unfold intersects. rewrite existsb_exists. split; intros (x & I & E); exists x; split; try exact I; now apply memb_in. Qed.

Lemma skip_sub sep : forall k t s piece, List.length t = k -> split_sub sep k piece (t ++ s) = split_sub sep 0 piece s.
Proof. induction k as [|k IH]; intros [|c t] s piece L; try discriminate L; [reflexivity|]. cbn [app split_sub]. apply IH. now injection L. Qed.

Lemma split_pieces sep (N : sep <> []) : forall n s piece, (List.length s <= n)%nat ->
  (forall a b, rev piece ++ s = a ++ sep ++ b -> (List.length piece <= List.length a)%nat) ->
  pieces sep (rev piece ++ s) (split_sub sep 0 piece s).
Proof.
  induction n as [|n IH]; intros s piece L F.
  - destruct s as [|]; [|cbn in L; lia]. rewrite app_nil_r in *. cbn [split_sub]. apply pieces_last. intros a b E. specialize (F a b E). apply (f_equal (@List.length _)) in E. rewrite !app_length, rev_length in E.
    destruct sep; [congruence|cbn [List.length] in E; lia].
  - destruct s as [|c r].
    { rewrite app_nil_r in *. cbn [split_sub]. apply pieces_last. intros a b E. specialize (F a b E). apply (f_equal (@List.length _)) in E. rewrite !app_length, rev_length in E. destruct sep; [congruence|cbn [List.length] in E; lia]. }
    cbn [split_sub]. destruct (starts_with sep (c :: r)) eqn:S.
    + apply starts_with_spec in S as (t & E). assert (exists u, sep = c :: u /\ r = u ++ t) as (u & Eu & Er). { destruct sep as [|x u]; [congruence|]. injection E as -> E. eauto. }
      apply pieces_cons with (b := t).
      * split; [now rewrite E|]. intros a' b' Q. rewrite rev_length. exact (F a' b' Q).
      * rewrite Er. rewrite skip_sub by (rewrite Eu; cbn; lia). change t with (rev [] ++ t) at 1. apply IH; [|intros; cbn; lia]. apply (f_equal (@List.length _)) in Er. rewrite app_length in Er. cbn in L. lia.
    + replace (rev piece ++ c :: r) with (rev (c :: piece) ++ r) in * by (cbn; now rewrite <- app_assoc). apply IH; [cbn in L; lia|].
      intros a b E. specialize (F a b E). cbn [List.length]. destruct (Nat.eq_dec (List.length a) (List.length piece)) as [Q|Q]; [exfalso|lia].
      cbn [rev] in E. rewrite <- app_assoc in E. cbn [app] in E. assert (rev piece = a /\ c :: r = sep ++ b) as [_ E'].
      { assert (List.length (rev piece) = List.length a) as Q' by (now rewrite rev_length). clear -E Q'. revert a E Q'. induction (rev piece) as [|x p IH]; intros [|y a] E Q'; try discriminate Q'; [auto|]. injection E as -> E. injection Q' as Q'. destruct (IH a E Q') as [-> ->]. auto. }
      rewrite E', starts_with_app in S. discriminate S.
Qed.
Lemma split_sub_pieces sep s : sep <> [] -> pieces sep s (split_sub sep 0 [] s).
Proof. intros N. apply (split_pieces sep N (List.length s) s []); [lia|intros; cbn; lia]. Qed.
Lemma cut_unique sep s a b a' b' : first_cut sep s a b -> first_cut sep s a' b' -> a = a' /\ b = b'.
Proof.
  intros [E M] [E' M']. pose proof (M _ _ E'). pose proof (M' _ _ E). assert (List.length a = List.length a') as Q by lia. rewrite E in E'. clear -E' Q. revert a' E' Q.
  induction a as [|x a IH]; intros [|y a'] E Q; try discriminate Q; [split; [reflexivity|]; cbn in E; now apply app_inv_head in E|]. injection E as -> E. injection Q as Q. destruct (IH a' E Q) as [-> ->]. auto.
Qed.
Lemma pieces_unique sep s l l' : pieces sep s l -> pieces sep s l' -> l = l'.
Proof.
  intros H. revert l'. induction H as [s H|s a b l H P IH]; intros l' P'; inversion P' as [s' H'|s' a' b' m' H' P'']; subst; [reflexivity|exfalso; destruct H' as [E _]; exact (H _ _ E)|exfalso; destruct H as [E _]; exact (H' _ _ E)|].
  destruct (cut_unique _ _ _ _ _ _ H H') as [-> ->]. f_equal. now apply IH.
Qed.

Section Check.
  Variables (fsspec : option (list str)) (isfile : str -> bool) (realpath : str -> str) (parts : str -> option (list str)) (detect : str -> list str)
    (random_start : str -> bool) (sqlcipher : bool) (loaded : list str) (importable : str -> bool) (backends : list backend).
  Notation check := (check_input_file_type fsspec isfile realpath parts detect random_start sqlcipher loaded importable backends).

  (** An argument with :// is accepted as it is if fsspec is there and knows every protocol before it; whatever file has this name. *)
  Theorem C115_url path a b : first_cut $"://" path a b ->
    (check path = Accepted path <-> exists known, fsspec = Some known /\ forall protocols, pieces $"::" a protocols -> Forall (fun p => In p known) protocols) /\
    (check path = Accepted path \/ check path = Refused NoFsspec \/ check path = Refused UnknownProtocol).
  Proof.
    intros C. unfold check_input_file_type. pose proof (split_sub_pieces $"://" path ltac:(discriminate)) as P. remember (split_sub $"://" 0 [] path) as cut eqn:Cut. inversion P as [s H E1 E2|s a' b' l C' P' E1 E2].
    { exfalso. destruct C as [E _]. exact (H _ _ E). }
    destruct (cut_unique _ _ _ _ _ _ C C') as [<- <-]. assert (exists x m, l = x :: m) as (x & m & ->) by (inversion P'; eauto). clear E2. destruct fsspec as [known|].
    - pose proof (split_sub_pieces $"::" a ltac:(discriminate)) as Q. destruct (forallb (fun p => memb p known) (split_sub $"::" 0 [] a)) eqn:F.
      + split; [|now left]. split; [|reflexivity]. intros _. exists known. split; [reflexivity|]. intros l P2. rewrite (pieces_unique _ _ _ _ P2 Q). rewrite forallb_forall in F. apply Forall_forall. intros p I. apply memb_in. now apply F.
      + split; [|now right; right]. split; [discriminate|]. intros (k & [= ->] & F'). exfalso. specialize (F' _ Q). rewrite Forall_forall in F'. assert (forallb (fun p => memb p k) (split_sub $"::" 0 [] a) = true) as T by (apply forallb_forall; intros p I; apply memb_in; now apply F').
        congruence.
    - split; [|now right; left]. split; [discriminate|]. intros (k & [=] & _).
  Qed.

  (** A backend that can be used. *)
  Definition there (module : str) : Prop := In module loaded \/ importable module = true.
  Definition usable (b : backend) : Prop := In b backends /\ Forall there (b_modules b).
  (** A detected format that counts: SQLAR does not, because everything may be an encrypted one. *)
  Definition opens (b : backend) (path : str) : Prop := exists f, In f (detect path) /\ f <> $"SQLAR" /\ In f (b_formats b).
  Definition encrypted_sqlar (path : str) : Prop := sqlcipher = true /\ (exists stem, map lower path = stem ++ $".sqlar") /\ random_start path = true.

  Lemma imported formats m : (In m (import_modules loaded importable backends formats) <->
    In m loaded \/ (importable m = true /\ exists b, In b backends /\ intersects formats (b_formats b) = true /\ In m (b_modules b))).
  Proof using.
    clear fsspec isfile realpath parts random_start sqlcipher detect. unfold import_modules. assert (forall bs sys, In m (fold_left (fun sys b => if intersects formats (b_formats b) then fold_left (fun sys m => if memb m sys then sys else if importable m then sys ++ [m] else sys) (b_modules b) sys else sys) bs sys) <->
      In m sys \/ (importable m = true /\ exists b, In b bs /\ intersects formats (b_formats b) = true /\ In m (b_modules b))) as G; [|apply G].
    assert (forall ms sys, In m (fold_left (fun sys m => if memb m sys then sys else if importable m then sys ++ [m] else sys) ms sys) <-> In m sys \/ (importable m = true /\ In m ms)) as G1.
    { induction ms as [|x ms IH]; intros sys; cbn [fold_left]; [cbn; tauto|]. rewrite IH. destruct (memb x sys) eqn:M; [apply memb_in in M|].
      - cbn [In]. split; [tauto|]. intros [H|[H [-> |H2]]]; tauto.
      - destruct (importable x) eqn:I; [rewrite in_app_iff|]; cbn [In]; split; intros H.
        + destruct H as [[H|[-> |[]]]|H]; tauto.
        + destruct H as [H|[H [-> |H2]]]; tauto.
        + tauto.
        + destruct H as [H|[H [-> |H2]]]; [tauto|congruence|tauto]. }
    induction bs as [|b bs IH]; intros sys; cbn [fold_left].
    - cbn [In]. split; [tauto|]. intros [H|(_ & b & [] & _)]. exact H.
    - rewrite IH. destruct (intersects formats (b_formats b)) eqn:X; [rewrite G1|]; split.
      + intros [[H|[H1 H2]]|(H & b' & H1 & H2)]; [now left|right; split; [exact H1|exists b; cbn; auto]|right; split; [exact H|exists b'; cbn; tauto]].
      + intros [H|(H & b' & [-> |H1] & H2 & H3)]; [tauto|tauto|right; split; [exact H|eauto]].
      + intros [H|(H & b' & H1 & H2)]; [now left|right; split; [exact H|exists b'; cbn; tauto]].
      + intros [H|(H & b' & [-> |H1] & H2 & H3)]; [tauto|congruence|right; split; [exact H|eauto]].
  Qed.

  Lemma step1 path : let formats := filter (fun f => negb (str_eqb f $"SQLAR")) (detect path) in let sys := import_modules loaded importable backends formats in
    existsb (fun b => intersects formats (b_formats b) && forallb (fun m => memb m sys) (b_modules b)) backends = true <-> exists b, usable b /\ opens b path.
  Proof using.
    clear fsspec isfile realpath parts random_start sqlcipher. cbv zeta. set (formats := filter _ _).
    assert (forall b, intersects formats (b_formats b) = true <-> opens b path) as O.
    { intros b. rewrite intersects_iff. unfold opens, formats. split; intros (f & H); exists f; [rewrite filter_In in H|rewrite filter_In]; destruct (str_eqb_spec f $"SQLAR"); cbn in *; intuition congruence. }
    rewrite existsb_exists. split.
    - intros (b & I & H). apply andb_true_iff in H as [H1 H2]. exists b. split; [|now apply O]. split; [exact I|]. apply Forall_forall. intros m J. rewrite forallb_forall in H2. apply H2, memb_in, imported in J. unfold there. tauto.
    - intros (b & (I & T) & H). exists b. split; [exact I|]. apply O in H. rewrite H. cbn. apply forallb_forall. intros m J. apply memb_in, imported. rewrite Forall_forall in T. destruct (T m J); [now left|right]. split; [assumption|eauto].
  Qed.

  (** Every other argument is accepted exactly if it is a file that is one part of a split file, and then its first part is mounted; or if
      it has, with links resolved, a format other than SQLAR that some backend with importable modules can open; or if it may be an encrypted
      SQLAR by its name and contents.  Otherwise it is refused for being no file, or without naming a reason. *)
  Theorem C115_file path : (forall a b, path <> a ++ $"://" ++ b) -> (forall p, parts p <> Some []) ->
    (isfile path = false -> check path = Refused NotAFile) /\
    (isfile path = true -> forall first rest, parts (realpath path) = Some (first :: rest) -> check path = Accepted first) /\
    (isfile path = true -> parts (realpath path) = None ->
     ((exists b, usable b /\ opens b (realpath path)) \/ encrypted_sqlar (realpath path) -> check path = Accepted (realpath path)) /\
     (~ ((exists b, usable b /\ opens b (realpath path)) \/ encrypted_sqlar (realpath path)) -> check path = Refused CannotOpen)).
  Proof.
    intros N NE. unfold check_input_file_type. pose proof (split_sub_pieces $"://" path ltac:(discriminate)) as P. remember (split_sub $"://" 0 [] path) as cut eqn:Cut. inversion P as [s H E1 E2|s a b l C' P' E1 E2]; [|exfalso; destruct C' as [E _]; exact (N _ _ E)].
    split; [intros ->; reflexivity|]. split; [intros -> first rest ->; reflexivity|]. intros -> Q. cbn [negb]. cbv zeta. rewrite Q.
    pose proof (step1 (realpath path)) as S1. cbv zeta in S1. set (formats := filter _ (detect (realpath path))) in *. set (sys := import_modules loaded importable backends formats) in *.
    set (first_step := existsb _ backends) in *.
    assert (first_step = false -> intersects (flat_map b_formats (filter (fun b => forallb (fun m => memb m sys) (b_modules b)) backends)) formats = false) as S2.
    { intros F. destruct (intersects (flat_map _ _) formats) eqn:X; [|reflexivity]. exfalso. apply intersects_iff in X as (f & X & Y). apply in_flat_map in X as (b & X & Z'). apply filter_In in X as [X W].
      assert (first_step = true); [|congruence]. unfold first_step. apply existsb_exists. exists b. split; [exact X|]. rewrite W, andb_true_r. apply intersects_iff. eauto. }
    assert (sqlcipher && ends_with $".sqlar" (map lower (realpath path)) && random_start (realpath path) = true <-> encrypted_sqlar (realpath path)) as S3.
    { unfold encrypted_sqlar. rewrite !andb_true_iff, ends_with_spec. tauto. }
    destruct first_step eqn:F; [split; [reflexivity|]; intros H0; exfalso; apply H0; left; now apply S1|]. rewrite (S2 eq_refl). cbn [negb].
    destruct (sqlcipher && _ && _) eqn:G.
    - split; [reflexivity|]. intros H0. exfalso. apply H0. right. now apply S3.
    - split; [|reflexivity]. intros [K|K]; [apply S1 in K; discriminate K|apply S3 in K; discriminate K].
  Qed.

  Variables isdir exists_ is_zip is_rar : str -> bool.
  Notation check_source := (check_mount_source fsspec isfile isdir exists_ realpath parts detect random_start sqlcipher loaded importable backends is_zip is_rar).

  (** What is refused so far is still accepted if it exists and is a folder, or a ZIP or RAR file by the check of the library for it. *)
  Theorem C115_fallback path :
    (forall p, check path = Accepted p -> check_source path = Accepted p) /\
    (forall r, check path = Refused r -> check_source path = Accepted (realpath path) \/ check_source path = Refused r) /\
    (forall r, check path = Refused r -> (check_source path = Accepted (realpath path) <-> exists_ path = true /\ (isdir path = true \/ is_zip path = true \/ is_rar path = true))).
  Proof.
    unfold check_mount_source. destruct (check path) as [p|r|e]; [split; [auto|split; discriminate]| |split; [auto|split; discriminate]]. split; [discriminate|].
    destruct (exists_ path), (isdir path), (is_zip path), (is_rar path); cbn; split; intros; tauto || (split; [discriminate|intuition discriminate]) || (split; auto).
  Qed.
End Check.

(** More modules, more backends and more protocols never make an accepted argument be refused. *)
Theorem C115_monotone fsspec fsspec' isfile realpath parts detect random_start sqlcipher sqlcipher' loaded loaded' importable importable' backends backends' path p :
  (forall q, parts q <> Some []) ->
  (forall known, fsspec = Some known -> exists known', fsspec' = Some known' /\ incl known known') -> (sqlcipher = true -> sqlcipher' = true) ->
  incl loaded loaded' -> (forall m, importable m = true -> importable' m = true) -> incl backends backends' ->
  check_input_file_type fsspec isfile realpath parts detect random_start sqlcipher loaded importable backends path = Accepted p ->
  check_input_file_type fsspec' isfile realpath parts detect random_start sqlcipher' loaded' importable' backends' path = Accepted p.
Proof.
  intros NE HF HS HL HI HB H. pose proof (split_sub_pieces $"://" path ltac:(discriminate)) as P. remember (split_sub $"://" 0 [] path) as cut eqn:Cut. inversion P as [s N E1 E2|s a b l C P' E1 E2].
  - destruct (C115_file fsspec isfile realpath parts detect random_start sqlcipher loaded importable backends path N NE) as (A1 & A2 & A3).
    destruct (C115_file fsspec' isfile realpath parts detect random_start sqlcipher' loaded' importable' backends' path N NE) as (B1 & B2 & B3).
    destruct (isfile path); [|rewrite A1 in H by reflexivity; discriminate H]. specialize (A2 eq_refl). specialize (A3 eq_refl). specialize (B2 eq_refl). specialize (B3 eq_refl).
    destruct (parts (realpath path)) as [[|first rest]|] eqn:Q; [destruct (NE _ Q)| |].
    + rewrite (A2 first rest eq_refl) in H. rewrite (B2 first rest eq_refl). exact H.
    + destruct (A3 eq_refl) as [A4 A5]. destruct (B3 eq_refl) as [B4 B5].
      assert (p = realpath path) as -> .
      { unfold check_input_file_type in H. rewrite <- Cut, <- E2 in H. destruct (isfile path); [|discriminate H]. cbn [negb] in H. cbv zeta in H. rewrite Q in H. destruct (existsb _ backends); [congruence|]. destruct (negb _); [destruct (_ && _); congruence|]. destruct (missing_module _ _ _); congruence. }
      apply B4.
      set (D := (exists b, usable loaded importable backends b /\ opens detect b (realpath path)) \/ encrypted_sqlar random_start sqlcipher (realpath path)) in *.
      assert (~ ~ D) as NN by (intros K; rewrite (A5 K) in H; discriminate H).
      assert (D \/ ~ D) as [K|K].
      { unfold D. destruct (existsb (fun b => intersects (filter (fun f => negb (str_eqb f $"SQLAR")) (detect (realpath path))) (b_formats b) && forallb (fun m => memb m (import_modules loaded importable backends (filter (fun f => negb (str_eqb f $"SQLAR")) (detect (realpath path))))) (b_modules b)) backends) eqn:X.
        - left. left. apply (step1 detect loaded importable backends). exact X.
        - destruct (sqlcipher && ends_with $".sqlar" (map lower (realpath path)) && random_start (realpath path)) eqn:Y.
          + left. right. unfold encrypted_sqlar. rewrite !andb_true_iff, ends_with_spec in Y. tauto.
          + right. intros [K|K]; [apply (step1 detect loaded importable backends) in K; congruence|]. unfold encrypted_sqlar in K. destruct K as (K1 & K2 & K3). apply ends_with_spec in K2. rewrite K1, K2, K3 in Y. discriminate Y. }
      * destruct K as [(b & (I & T) & O)|(K1 & K2 & K3)]; [left|right; split; auto]. exists b. split; [|exact O]. split; [now apply HB|]. revert T. apply Forall_impl. intros m [L|L]; [left; now apply HL|right; now apply HI].
      * contradiction.
  - destruct (C115_url fsspec isfile realpath parts detect random_start sqlcipher loaded importable backends path a b C) as [A1 A2].
    destruct (C115_url fsspec' isfile realpath parts detect random_start sqlcipher' loaded' importable' backends' path a b C) as [B1 _].
    assert (p = path) as -> by (destruct A2 as [A2|[A2|A2]]; congruence). apply B1. apply A1 in H as (known & K & F). destruct (HF known K) as (known' & K' & J). exists known'. split; [exact K'|].
    intros protocols Q. specialize (F _ Q). revert F. apply Forall_impl. intros x. apply J.
Qed.

(** Not so, wanted: if a format is known but the module for it cannot be imported, the module is named.  It never is. *)
Theorem C115_module_refuted fsspec isfile realpath parts detect random_start sqlcipher loaded importable backends path m :
  (forall q, parts q <> Some []) -> check_input_file_type fsspec isfile realpath parts detect random_start sqlcipher loaded importable backends path <> Refused (MissingModule m).
Proof.
  intros NE. pose proof (split_sub_pieces $"://" path ltac:(discriminate)) as P. remember (split_sub $"://" 0 [] path) as cut eqn:Cut. inversion P as [s N E1 E2|s a b l C P' E1 E2].
  - unfold check_input_file_type. rewrite <- Cut, <- E2. destruct (isfile path); [|discriminate]. cbn [negb]. cbv zeta. destruct (parts (realpath path)) as [[|]|]; [discriminate|discriminate|].
    set (formats := filter _ _). set (sys := import_modules _ _ _ _). destruct (existsb _ backends) eqn:F; [discriminate|]. destruct (intersects (flat_map _ _) formats) eqn:X; cbn [negb]; [|destruct (_ && _); discriminate].
    exfalso. apply intersects_iff in X as (f & X & Y). apply in_flat_map in X as (b & X & Z'). apply filter_In in X as [X W]. rewrite <- not_true_iff_false in F. apply F. apply existsb_exists. exists b. split; [exact X|]. rewrite W, andb_true_r. apply intersects_iff. eauto.
  - destruct (C115_url fsspec isfile realpath parts detect random_start sqlcipher loaded importable backends path a b C) as [_ [A|[A|A]]]; congruence.
Qed.

(** Not so, wanted: a large zstd file with one frame gives a warning.  None does, because the backend is looked up with a wrong name; with
    the right one it would. *)
Theorem C115_warning_refuted detect multiframe size path :
  warns detect multiframe size path = false /\
  (In $"ZSTANDARD" (detect path) -> multiframe path = Some false -> 1048576 < size path -> zstd_warning detect multiframe size $"indexed_zstd" path = true).
Proof.
  split.
  - unfold warns, zstd_warning. destruct (memb $"ZSTANDARD" (detect path)); reflexivity.
  - intros I M S. unfold zstd_warning. apply memb_in in I. rewrite I, M. cbn [memb existsb compression_names]. change (memb $"indexed_zstd" compression_names) with true. cbv iota. now apply Z.ltb_lt.
Qed.

Example C115_case :
  let check := check_input_file_type (Some [$"http"; $"simplecache"]) (fun p => str_eqb p $"a.tar" || str_eqb p $"b.sqlar") (fun p => $"/d/" ++ p) (fun _ => None)
                 (fun p => if str_eqb p $"/d/a.tar" then [$"TAR"; $"SQLAR"] else [$"SQLAR"]) (fun _ => true) true [] (fun m => str_eqb m $"tarfile")
                 [mkBackend [$"RAR"] [$"rarfile"]; mkBackend [$"TAR"] [$"tarfile"]; mkBackend [$"SQLAR"] []] in
  check $"simplecache::http://x/y.zip" = Accepted $"simplecache::http://x/y.zip" /\ check $"ftp://x" = Refused UnknownProtocol /\
  check $"a.tar" = Accepted $"/d/a.tar" /\ check $"b.sqlar" = Accepted $"/d/b.sqlar" /\ check $"c" = Refused NotAFile.
Proof. vm_compute. repeat split. Qed.

(** * Unmounting *)
Section Unmount.
  Context {World : Type}.
  Variables (ismount : World -> str -> bool) (run : str -> str -> World -> bool * World) (sleep : World -> World) (others : list str).

  (** What is assumed of the programs: they take away nothing but the given mount point, and nothing new appears. *)
  Hypothesis run_only : forall program m w x, x <> m -> ismount (snd (run program m w)) x = ismount w x.
  Hypothesis run_less : forall program m w, ismount (snd (run program m w)) m = true -> ismount w m = true.
  Hypothesis sleep_less : forall w m, ismount (sleep w) m = true -> ismount w m = true.

  Lemma try_only ps m : forall w x, x <> m -> ismount (snd (try_all run ps m w)) x = ismount w x.
  Proof. induction ps as [|p ps IH]; intros w x N; [reflexivity|]. cbn. pose proof (run_only p m w x N) as R. destruct (run p m w) as [[] w']; cbn in *; [exact R|]. now rewrite IH. Qed.
  Lemma try_less ps m : forall w, ismount (snd (try_all run ps m w)) m = true -> ismount w m = true.
  Proof. induction ps as [|p ps IH]; intros w; [auto|]. cbn. pose proof (run_less p m w) as R. destruct (run p m w) as [[] w']; cbn in *; auto. Qed.
  Lemma unmount_only m w x : x <> m -> ismount (unmount ismount run others m w) x = ismount w x.
  Proof.
    intros N. unfold unmount. pose proof (run_only $"fusermount" m w x N) as R. destruct (run $"fusermount" m w) as [[] w1]; cbn [snd] in R; [exact R|].
    destruct (ismount w1 m) eqn:M.
    - pose proof (try_only others m w1 x N) as R2. destruct (try_all run others m w1) as [[] w2]; cbn [snd] in R2; [congruence|]. destruct (ismount w2 m); [rewrite run_only by exact N|]; congruence.
    - rewrite M. exact R.
  Qed.
  Lemma unmount_less m w : ismount (unmount ismount run others m w) m = true -> ismount w m = true.
  Proof.
    unfold unmount. pose proof (run_less $"fusermount" m w) as R. destruct (run $"fusermount" m w) as [[] w1]; cbn [snd] in R; [exact R|]. intros H. apply R. destruct (ismount w1 m) eqn:M; [reflexivity|].
    rewrite M in H. congruence.
  Qed.

  (** Unmounting several mount points: all of them are tried, nothing else is touched while doing so, the exit code is 0 exactly if none of
      them is a mount point afterwards, and those that still are, and only those, are named. *)
  Theorem C116_unmount mountPoints w : mountPoints <> [] ->
    exists code failed w', unmount_list ismount run sleep others mountPoints w = Ok (code, failed, w') /\
    (code = 0 <-> forall m, In m mountPoints -> ismount w' m = false) /\ (code = 0 \/ code = 1) /\
    (forall m, In m failed <-> In m mountPoints /\ ismount w' m = true) /\
    (forall m, ismount w' m = true -> ismount w m = true) /\
    ((forall w m, ismount (sleep w) m = ismount w m) -> forall m, ~ In m mountPoints -> ismount w' m = ismount w m).
  Proof.
    intros N. unfold unmount_list. destruct mountPoints as [|m0 l0] eqn:EM; [congruence|]. rewrite <- EM. clear N EM m0 l0.
    set (w1 := fold_left (fun w m => unmount ismount run others m w) mountPoints w).
    assert (forall m, ismount w1 m = true -> ismount w m = true) as Less.
    { unfold w1. clear w1. revert w. induction mountPoints as [|m0 l IH]; intros w m H; [exact H|]. cbn in H. apply IH in H. destruct (str_eqb_spec m m0) as [-> |D]; [now apply unmount_less in H|]. now rewrite unmount_only in H. }
    assert (forall m, ~ In m mountPoints -> ismount w1 m = ismount w m) as Only.
    { unfold w1. clear w1 Less. revert w. induction mountPoints as [|m0 l IH]; intros w m H; [reflexivity|]. cbn. cbn in H. rewrite IH by tauto. apply unmount_only. intros ->. tauto. }
    destruct (existsb (ismount w1) mountPoints) eqn:X.
    - do 3 eexists. split; [reflexivity|]. set (w2 := sleep w1). split; [|split; [|split; [|split]]].
      + destruct (filter (ismount w2) mountPoints) as [|f r] eqn:F.
        * split; [|reflexivity]. intros _ m I. destruct (ismount w2 m) eqn:Q; [|reflexivity]. assert (In m (filter (ismount w2) mountPoints)) as J by (apply filter_In; auto). rewrite F in J. destruct J.
        * split; [discriminate|]. intros A. assert (In f (filter (ismount w2) mountPoints)) as J by (rewrite F; now left). apply filter_In in J as [J1 J2]. rewrite (A f J1) in J2. discriminate J2.
      + destruct (filter _ _); auto.
      + intros m. apply filter_In.
      + intros m H. apply Less. now apply sleep_less.
      + intros S m I. unfold w2. rewrite S. now apply Only.
    - do 3 eexists. split; [reflexivity|]. assert (forall m, In m mountPoints -> ismount w1 m = false) as A.
      { intros m I. destruct (ismount w1 m) eqn:Q; [|reflexivity]. rewrite <- not_true_iff_false in X. destruct X. apply existsb_exists. eauto. }
      split; [tauto|]. split; [now left|]. split; [|split; [exact Less|intros _; exact Only]]. intros m. cbn. split; [tauto|]. intros [I Q]. rewrite (A m I) in Q. discriminate Q.
  Qed.

  (** A mount point that one of the programs can take away is not there any more afterwards: fusermount, then the others found in PATH, then
      umount, if a program that reports success has taken it away. *)
  Theorem C116_tried m w : (forall program w, fst (run program m w) = true -> ismount (snd (run program m w)) m = false) ->
    (exists program, In program ($"fusermount" :: others ++ [$"umount"]) /\ forall w, ismount (snd (run program m w)) m = false) ->
    ismount (unmount ismount run others m w) m = false.
  Proof.
    intros Honest (program & I & Able). unfold unmount. pose proof (Honest $"fusermount" w) as H1. destruct (run $"fusermount" m w) as [[] w1] eqn:E1; cbn [fst snd] in H1; [auto|].
    destruct (ismount w1 m) eqn:M1; [|now rewrite M1].
    assert (forall ps w, fst (try_all run ps m w) = true -> ismount (snd (try_all run ps m w)) m = false) as T1.
    { induction ps as [|p ps IH]; intros w' F; [discriminate F|]. cbn in *. pose proof (Honest p w') as H. destruct (run p m w') as [[] w2]; cbn [fst snd] in *; auto. }
    assert (forall ps w, In program ps -> ismount (snd (try_all run ps m w)) m = false) as T2.
    { induction ps as [|p ps IH]; intros w' J; [destruct J|]. cbn. pose proof (Honest p w') as H. pose proof (run_less p m w') as L. destruct J as [-> |J].
      - pose proof (Able w') as A. destruct (run program m w') as [[] w2]; cbn [fst snd] in *; [exact A|]. destruct (ismount (snd (try_all run ps m w2)) m) eqn:Q; [|reflexivity]. apply try_less in Q. congruence.
      - destruct (run p m w') as [[] w2]; cbn [fst snd] in *; [auto|]. now apply IH. }
    pose proof (T1 others w1) as T1'. destruct (try_all run others m w1) as [[] w2] eqn:E2; cbn [fst snd] in T1'; [auto|].
    destruct (ismount w2 m) eqn:M2; [|exact M2]. destruct I as [<- |I].
    - pose proof (Able w) as A. rewrite E1 in A. cbn in A. congruence.
    - apply in_app_or in I as [I|[<- |[]]]; [|apply Able]. pose proof (T2 others w1 I) as A. rewrite E2 in A. cbn in A. congruence.
  Qed.
End Unmount.

(** The assumptions can be met: a world is a list of mount points and the programs that work. *)
Example C116_case :
  let ismount (w : list str) m := memb m w in
  let run program m (w : list str) := if str_eqb program $"umount" then (true, filter (fun x => negb (str_eqb x m)) w) else (false, w) in
  (forall program m w x, x <> m -> ismount (snd (run program m w)) x = ismount w x) /\
  (forall program m w, ismount (snd (run program m w)) m = true -> ismount w m = true) /\
  unmount_list ismount run (fun w => w) [$"/usr/bin/fusermount"] [$"a"; $"b"] [$"x"; $"a"] = Ok (0, [], [$"x"]).
Proof.
  cbv zeta. split; [|split; [|reflexivity]].
  - intros program m w x N. destruct (str_eqb program $"umount"); [|reflexivity]. cbn [snd]. destruct (memb x w) eqn:M.
    + apply memb_in in M. apply memb_in, filter_In. split; [exact M|]. destruct (str_eqb_spec x m); [congruence|reflexivity].
    + destruct (memb x (filter _ w)) eqn:Q; [|reflexivity]. apply memb_in, filter_In in Q as [Q _]. apply memb_in in Q. congruence.
  - intros program m w. destruct (str_eqb program $"umount"); [|auto]. cbn [snd]. intros H. apply memb_in, filter_In in H as [H _]. now apply memb_in.
Qed.

Print Assumptions C115_url.
Print Assumptions C115_file.
Print Assumptions C115_fallback.
Print Assumptions C115_monotone.
Print Assumptions C115_module_refuted.
Print Assumptions C115_warning_refuted.
Print Assumptions C116_unmount.
Print Assumptions C116_tried.
