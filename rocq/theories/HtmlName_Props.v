(** Property C120: embedded files of HTML documents are found by their names. *)
From Coq Require Import Ascii String Permutation.
From Verif Require Import PyBase PyDict PyStr Path_Model Path_Spec Path_Proofs FileInfo Index_Model Index_Spec Index_Proofs Tar_Model Tar_Proofs Member_Proofs Rar_Proofs
  Format_Model Factory_Model HtmlName_Model HtmlName_Spec.
Local Open Scope Z_scope.

Lemma lower_same a b : lower a = lower b <-> same_letter a b.
Proof.
  assert (S : forall c, ord c = Z.of_nat (nat_of_ascii c)) by reflexivity.
  assert (B : forall c, (nat_of_ascii c < 256)%nat) by apply nat_ascii_bounded.
  assert (L : forall c, nat_of_ascii (lower c) = if (Nat.leb 65 (nat_of_ascii c) && Nat.leb (nat_of_ascii c) 90)%bool then (nat_of_ascii c + 32)%nat else nat_of_ascii c).
  { intros c. unfold lower. rewrite !S. pose proof (B c).
    replace (65 <=? Z.of_nat (nat_of_ascii c)) with (Nat.leb 65 (nat_of_ascii c)) by (destruct (Nat.leb_spec 65 (nat_of_ascii c)), (Z.leb_spec 65 (Z.of_nat (nat_of_ascii c))); lia || reflexivity).
    replace (Z.of_nat (nat_of_ascii c) <=? 90) with (Nat.leb (nat_of_ascii c) 90) by (destruct (Nat.leb_spec (nat_of_ascii c) 90), (Z.leb_spec (Z.of_nat (nat_of_ascii c)) 90); lia || reflexivity).
    destruct (Nat.leb_spec 65 (nat_of_ascii c)); cbn [andb]; [|reflexivity]. destruct (Nat.leb_spec (nat_of_ascii c) 90); [|reflexivity].
    apply nat_ascii_embedding. lia. }
  assert (I : forall x y, nat_of_ascii x = nat_of_ascii y -> x = y) by (intros x y E; rewrite <- (ascii_nat_embedding x), <- (ascii_nat_embedding y); now f_equal).
  split.
  - intros E. apply (f_equal nat_of_ascii) in E. rewrite !L in E. pose proof (B a). pose proof (B b).
    destruct (Nat.leb_spec 65 (nat_of_ascii a)), (Nat.leb_spec (nat_of_ascii a) 90), (Nat.leb_spec 65 (nat_of_ascii b)), (Nat.leb_spec (nat_of_ascii b) 90); cbn [andb] in E;
      try (left; apply I; lia).
    all: right; first
      [ exists (nat_of_ascii a - 65)%nat; split; [lia|]; left; split; apply I; rewrite nat_ascii_embedding by lia; lia
      | exists (nat_of_ascii b - 65)%nat; split; [lia|]; right; split; apply I; rewrite nat_ascii_embedding by lia; lia ].
  - intros [-> |(k & K & [(-> & ->)|(-> & ->)])]; [reflexivity| |]; apply I; rewrite !L, !nat_ascii_embedding by lia.
    + destruct (Nat.leb_spec 65 (65 + k)), (Nat.leb_spec (65 + k) 90), (Nat.leb_spec 65 (97 + k)), (Nat.leb_spec (97 + k) 90); cbn [andb]; lia.
    + destruct (Nat.leb_spec 65 (65 + k)), (Nat.leb_spec (65 + k) 90), (Nat.leb_spec 65 (97 + k)), (Nat.leb_spec (97 + k) 90); cbn [andb]; lia.
Qed.
Lemma lower_str_same a b : lower_str a = lower_str b <-> Forall2 same_letter a b.
Proof.
  revert b. induction a as [|x a IH]; intros [|y b]; cbn; split; intros H; try discriminate; try (now inversion H); try constructor.
  - injection H as H _. now apply lower_same.
  - injection H as _ H. now apply IH.
  - inversion H as [|? ? ? ? H1 H2]; subst. f_equal; [now apply lower_same|now apply IH].
Qed.
Lemma same_plain a b : same_letter a b -> (a = dotc <-> b = dotc) /\ (a = slash <-> b = slash).
Proof.
  intros [-> |(k & K & H)]; [tauto|].
  assert (forall n c, (65 <= n < 123)%nat -> (nat_of_ascii c < 65)%nat -> ascii_of_nat n <> c) as N.
  { intros n c Hn Hc E. apply (f_equal nat_of_ascii) in E. rewrite nat_ascii_embedding in E by lia. lia. }
  assert ((nat_of_ascii dotc < 65)%nat /\ (nat_of_ascii slash < 65)%nat) as [D S] by (cbn; lia).
  destruct H as [(-> & ->)|(-> & ->)]; repeat split; intros E; exfalso; revert E; apply N; lia.
Qed.
Lemma same_in a b c : Forall2 same_letter a b -> c = dotc \/ c = slash -> In c a <-> In c b.
Proof.
  induction 1 as [|x y a b H F IH]; intros C; [tauto|]. cbn. specialize (IH C). destruct (same_plain _ _ H) as [E1 E2]. destruct C as [-> | ->]; tauto.
Qed.

(** The last part of a path. *)
Lemma last_part folder name : (folder = [] \/ exists f, folder = f ++ $"/") -> ~ In slash name ->
  match rsplit1 slash (folder ++ name) with Some (_, n) => n | None => folder ++ name end = name.
Proof.
  intros [-> |(f & ->)] N; cbn [app].
  - rewrite (proj2 (rsplit1_None _ _)) by exact N. reflexivity.
  - replace ((f ++ $"/") ++ name) with (f ++ slash :: name) by now rewrite <- app_assoc. now rewrite (proj2 (rsplit1_Some slash (f ++ slash :: name) f name)) by auto.
Qed.

Lemma splitext1_suffix p s : ~ In dotc s -> ~ In slash s -> (Forall2 same_letter (splitext1 p) ($"." ++ s) <-> has_suffix p ($"." ++ s)).
Proof.
  intros Nd Ns. split.
  - intros H. unfold splitext1 in H. set (name := match rsplit1 slash p with Some (_, n) => n | None => p end) in *.
    assert (exists folder, p = folder ++ name /\ (folder = [] \/ exists f, folder = f ++ $"/") /\ ~ In slash name) as (folder & Ep & Hf & Hn).
    { unfold name. destruct (rsplit1 slash p) as [[f n]|] eqn:E.
      - apply rsplit1_Some in E as [-> N]. exists (f ++ $"/"). split; [now rewrite <- app_assoc|]. split; [right; now exists f|exact N].
      - apply rsplit1_None in E. exists []. auto. }
    destruct (rsplit1 dotc name) as [[a b]|] eqn:E; [|inversion H]. apply rsplit1_Some in E as [En Nb].
    destruct (forallb (fun c => char_eqb c dotc) a) eqn:Fa; [inversion H|].
    exists folder, a, (dotc :: b). split; [now rewrite Ep, En|]. split; [exact Hf|]. split; [intros I; apply Hn; rewrite En; apply in_or_app; now left|]. split; [|exact H].
    apply not_true_iff_false in Fa. clear - Fa. induction a as [|c a IH]; [now contradiction Fa|]. cbn [forallb] in Fa. destruct (char_eqb_spec c dotc) as [-> |N].
    + destruct IH as (d & I & D); [exact Fa|]. exists d. split; [now right|exact D].
    + exists c. split; [now left|exact N].
  - intros (folder & name & e & -> & Hf & Hn & (c & Ic & Nc) & F). unfold splitext1.
    assert (~ In slash e) as Se. { intros I. apply (same_in _ _ slash F) in I; [|auto]. cbn in I. destruct I as [I|I]; [discriminate|contradiction]. }
    rewrite (last_part folder (name ++ e)) by (try assumption; intros I; apply in_app_or in I; tauto).
    destruct e as [|d e]; [inversion F|]. inversion F as [|? ? ? ? F1 F2]; subst. assert (d = dotc) as -> by now apply (same_plain _ _ F1).
    assert (~ In dotc e) as De by (intros I; apply (same_in _ _ dotc F2) in I; auto).
    rewrite (proj2 (rsplit1_Some dotc (name ++ dotc :: e) name e)) by auto.
    destruct (forallb (fun c => char_eqb c dotc) name) eqn:Fa; [|exact F].
    exfalso. rewrite forallb_forall in Fa. specialize (Fa c Ic). destruct (char_eqb_spec c dotc); congruence.
Qed.

(** Digests consist of letters and digits. *)
Definition plain_digest (digest : list Z -> str) : Prop := forall b, digest b <> [] /\ ~ In dotc (digest b) /\ ~ In slash (digest b).

(** The name is as specified. *)
Lemma virtual_path_spec guess digest url mime contents suffix path : plain_digest digest -> suffix_of guess mime suffix -> good_suffix suffix ->
  titled digest url suffix contents path -> virtual_path guess digest url mime contents = path.
Proof.
  intros Pd Hs G T. unfold virtual_path.
  assert ((if ends_with $"/javascript" mime then $".js" else match guess mime with Some e => e | None => [] end) = suffix) as ->.
  { destruct Hs as [((m & ->) & ->)|(N & H)].
    - now rewrite (proj2 (ends_with_spec $"/javascript" (m ++ $"/javascript"))) by now exists m.
    - destruct (ends_with $"/javascript" mime) eqn:E; [apply ends_with_spec in E as (m & E); now apply N in E|]. destruct H as [-> |(-> & ->)]; reflexivity. }
  assert (K : str_eqb url [] || starts_with $"data:" url = true <-> ~ known url).
  { unfold known. rewrite orb_true_iff. destruct (str_eqb_spec url []) as [-> |N].
    - split; [intros _ [H _]; now apply H|tauto].
    - destruct (starts_with $"data:" url) eqn:E.
      + apply starts_with_spec in E as (r & ->). split; [intros _ [_ H]; now apply (H r)|tauto].
      + split; [intros [|]; discriminate|]. intros H. exfalso. apply H. split; [exact N|]. intros r ->. assert (starts_with $"data:" ($"data:" ++ r) = true) by (apply starts_with_spec; now exists r). congruence. }
  assert (R : forall p, suffix <> [] -> str_eqb (lower_str (splitext1 p)) (lower_str suffix) = true <-> has_suffix p suffix).
  { intros p N. destruct G as [-> |(s & -> & Nd & Ns)]; [contradiction|]. rewrite <- splitext1_suffix by assumption. rewrite <- lower_str_same. apply str_eqb_eq. }
  destruct T as [U|U H|U N H].
  - rewrite (proj2 K U). destruct (str_eqb_spec suffix []) as [-> |N]; [rewrite ?app_nil_r; match goal with |- (if ?b then _ else _) = _ => destruct b end; reflexivity|].
    rewrite (proj2 (R _ N)); [reflexivity|]. destruct (Pd contents) as (P1 & P2 & P3). exists [], (digest contents), suffix. split; [reflexivity|]. split; [now left|]. split; [exact P3|].
    split; [|clear; induction suffix; constructor; [now left|assumption]]. destruct (digest contents) as [|c d]; [contradiction|]. exists c. split; [now left|]. intros ->. apply P2. now left.
  - destruct (str_eqb url [] || starts_with $"data:" url); [exfalso; now apply (proj1 K eq_refl)|]. destruct (str_eqb_spec suffix []) as [-> |N]; [rewrite ?app_nil_r; match goal with |- (if ?b then _ else _) = _ => destruct b end; reflexivity|].
    destruct H as [|H]; [contradiction|]. now rewrite (proj2 (R _ N)).
  - destruct (str_eqb url [] || starts_with $"data:" url); [exfalso; now apply (proj1 K eq_refl)|]. destruct (str_eqb (lower_str (splitext1 url)) (lower_str suffix)) eqn:E; [|reflexivity].
    now apply (R _ N) in E.
Qed.

Section C120.
  Variable opened : Z -> Z -> res (str * list Z).
  Variable guess : str -> option str.
  Variable digest : list Z -> str.
  Variable transform : str -> str.
  Variable mtime : Z.
  Hypothesis Digest : plain_digest digest.
  Hypothesis Guess : forall mime e, guess mime = Some e -> good_suffix e.

  (** The embedded file is shown at a location, with its media type and its contents. *)
  Definition shown_at (f : embedded) (loc : location) (mime : str) (contents : list Z) : Prop :=
    opened (e_start f) (e_end f) = Ok (mime, contents) /\
    exists suffix path, suffix_of guess mime suffix /\ titled digest (e_url f) suffix contents path /\ denotes (transform path) = loc.

  Definition location_of (f : embedded) : location :=
    match opened (e_start f) (e_end f) with Ok (mime, contents) => denotes (transform (virtual_path guess digest (e_url f) mime contents)) | Err _ => [] end.
  Definition row_for (f : embedded) : row :=
    match html_row opened guess digest transform mtime f with Ok r => r | Err _ => mkRow [] [] 0 0 0 0 0 0 [] 0 0 false false false 0 end.

  Lemma suffix_good mime suffix : suffix_of guess mime suffix -> good_suffix suffix.
  Proof.
    intros [(_ & ->)|(_ & [H|(_ & ->)])]; [|now apply (Guess mime)|now left]. right. exists $"js". split; [reflexivity|]. split; cbn; intuition discriminate.
  Qed.
  Lemma shown_location f loc mime contents : shown_at f loc mime contents -> location_of f = loc.
  Proof.
    intros (O & suffix & path & S & T & <-). unfold location_of. rewrite O. do 2 f_equal. apply virtual_path_spec with (suffix := suffix); auto. now apply (suffix_good mime).
  Qed.
  Lemma rows_ok fs rows : html_rows opened guess digest transform mtime fs = Ok rows -> rows = map row_for fs.
  Proof.
    revert rows. induction fs as [|f fs IH]; intros rows H; cbn [html_rows] in H; [now injection H as <-|]. cbn [map]. unfold row_for at 1.
    destruct (html_row _ _ _ _ _ f) as [r|]; [|discriminate]. cbn [bind] in H. destruct (html_rows _ _ _ _ _ fs) as [rs|]; [|discriminate]. cbn [bind] in H. injection H as <-.
    f_equal. now apply IH.
  Qed.
  Lemma row_fields f : full_path (row_for f) = written (location_of f) /\ ~ In slash (r_name (row_for f)) /\
    (forall mime contents, opened (e_start f) (e_end f) = Ok (mime, contents) ->
       r_offsetheader (row_for f) = e_start f /\ r_offset (row_for f) = e_end f /\ r_size (row_for f) = len contents /\ r_mtime (row_for f) = mtime /\ r_mode (row_for f) = 32768 + 511 /\
       r_linkname (row_for f) = [] /\ r_uid (row_for f) = 0 /\ r_gid (row_for f) = 0).
  Proof.
    unfold row_for, location_of, html_row. destruct (opened (e_start f) (e_end f)) as [[mime contents]|]; cbn [bind].
    - rewrite normpath_written. destruct (split_last_written (denotes (transform (virtual_path guess digest (e_url f) mime contents))) (denotes_proper _)) as (a & b & -> & E & N).
      split; [exact E|]. split; [exact N|]. intros m c [= <- <-]. repeat split.
    - split; [reflexivity|]. split; [intros []|]. intros m c H. discriminate.
  Qed.

  (** C120: if the document could be mounted, the last of the embedded files at a location is found there with its size, and opening it
      gives its contents, provided that no other one is below that location.  The spans of the files begin at different places. *)
  Theorem C120_lookup_and_open_partial :
    forall fs files now uid gid sh loc f mime contents, any_order sh -> html_index opened guess digest transform mtime fs = Ok files ->
    NoDup (map e_start fs) -> In f fs -> shown_at f loc mime contents -> loc <> [] ->
    (forall f' mime' contents', In f' fs -> shown_at f' loc mime' contents' -> e_start f' <= e_start f) ->
    (forall f' mime' contents' rest, In f' fs -> rest <> [] -> ~ shown_at f' (loc ++ rest) mime' contents') ->
    exists i, lookup now uid gid sh files (written loc) 0 = Some i /\ html_open opened i = Ok (mime, contents) /\
      fi_size i = Z.of_nat (List.length contents) /\ fi_mode i = 32768 + 511 /\ fi_mtime i = mtime /\ fi_linkname i = [] /\ fi_uid i = 0 /\ fi_gid i = 0.
  Proof.
    intros fs files now uid gid sh loc f mime contents Hsh Hi Nd I S N Nw Nb. unfold html_index in Hi. destruct (html_rows _ _ _ _ _ fs) as [rows|] eqn:Er; [|discriminate]. cbn [bind] in Hi. injection Hi as <-.
    assert (All : forall f', In f' fs -> exists mime' contents', shown_at f' (location_of f') mime' contents').
    { intros f' I'. assert (exists m c, opened (e_start f') (e_end f') = Ok (m, c)) as (m & c & O).
      { clear - Er I'. revert rows Er. induction fs as [|g fs IH]; intros rows Er; [destruct I'|]. cbn [html_rows] in Er. destruct (html_row _ _ _ _ _ g) as [r|] eqn:Eg; [|discriminate]. cbn [bind] in Er.
        destruct (html_rows _ _ _ _ _ fs) as [rs|]; [|discriminate]. destruct I' as [<- |I']; [|now apply (IH I' rs)]. unfold html_row in Eg. destruct (opened _ _) as [[m c]|]; [eauto|discriminate]. }
      exists m, c. split; [exact O|].
      assert (exists suffix, suffix_of guess m suffix) as (suffix & Sx).
      { unfold suffix_of. destruct (ends_with $"/javascript" m) eqn:E.
        - apply ends_with_spec in E. exists $".js". left. auto.
        - assert (forall x, m <> x ++ $"/javascript") as No. { intros x ->. rewrite (proj2 (ends_with_spec $"/javascript" (x ++ $"/javascript"))) in E; [discriminate|now exists x]. }
          destruct (guess m) as [e|]; [exists e|exists []]; right; auto. }
      exists suffix. pose proof (suffix_good m suffix Sx) as G.
      assert (exists path, titled digest (e_url f') suffix c path) as (path & T).
      { assert (D1 : known (e_url f') \/ ~ known (e_url f')).
        { unfold known. destruct (e_url f') as [|x u]; [right; intros [H _]; now apply H|]. destruct (starts_with $"data:" (x :: u)) eqn:E.
          - apply starts_with_spec in E as (r & E). right. intros [_ H]. now apply (H r).
          - left. split; [discriminate|]. intros r H. assert (starts_with $"data:" (x :: u) = true) by (apply starts_with_spec; now exists r). congruence. }
        destruct D1 as [K|K]; [|eexists; now constructor]. destruct G as [-> |(s & -> & G1 & G2)]; [eexists; apply titled_as_it_was; auto|].
        destruct (str_eqb (lower_str (splitext1 (e_url f'))) (lower_str ($"." ++ s))) eqn:E.
        - eexists. apply titled_as_it_was; [exact K|]. right. apply splitext1_suffix; auto. apply lower_str_same. now apply str_eqb_eq.
        - eexists. apply titled_with_suffix; [exact K|discriminate|]. intros H. apply splitext1_suffix in H; auto. apply lower_str_same in H. apply str_eqb_eq in H. congruence. }
      exists path. split; [exact Sx|]. split; [exact T|]. unfold location_of. rewrite O. do 2 f_equal. symmetry. now apply virtual_path_spec with (suffix := suffix). }
    pose proof (shown_location _ _ _ _ S) as Lf. pose proof (rows_ok _ _ Er) as ->. destruct (row_fields f) as (F1 & F2 & F3). pose proof (proj1 S) as O.
    destruct (F3 _ _ O) as (G1 & G2 & G3 & G4 & G5 & G6 & G7 & G8). exists (row_to_file_info (row_for f)). split.
    - destruct (in_split f fs I) as (before & after & E).
      assert (St : forall g, In g fs -> r_offsetheader (row_for g) = e_start g). { intros g Ig. destruct (All g Ig) as (m & c & Og & _). now apply (row_fields g) in Og. }
      rewrite E. apply (member_lookup row_for location_of); auto.
      + intros e. apply row_fields.
      + intros e. apply row_fields.
      + intros e. unfold location_of. destruct (opened (e_start e) (e_end e)) as [[m c]|]; [apply denotes_proper|constructor].
      + intros g Ig Lg. rewrite (St f I), (St g) by (rewrite E; apply in_or_app; now left).
        destruct (All g) as (m & c & Sg); [rewrite E; apply in_or_app; now left|]. rewrite Lg in Sg. apply (Nw g m c); [rewrite E; apply in_or_app; now left|exact Sg].
      + intros g Ig Lg. assert (Ig' : In g fs) by (rewrite E; apply in_or_app; right; now right). rewrite (St f I), (St g Ig').
        destruct (All g Ig') as (m & c & Sg). rewrite Lg in Sg. specialize (Nw g m c Ig' Sg). enough (e_start g <> e_start f) by lia. intros Q.
        rewrite E, map_app in Nd. cbn [map] in Nd. apply NoDup_remove_2 in Nd. apply Nd. apply in_or_app. right. rewrite <- Q. now apply in_map.
      + right. intros g rest Ig R Lg. rewrite <- E in Ig. destruct (All g Ig) as (m & c & Sg). rewrite Lg in Sg. now apply (Nb g m c rest Ig R).
    - unfold html_open. cbn [row_to_file_info fi_userdata u_offsetheader u_offset fi_size fi_mode fi_mtime fi_linkname fi_uid fi_gid]. rewrite G1, G2. repeat (split; [assumption|]). assumption.
  Qed.
End C120.
Print Assumptions C120_lookup_and_open_partial.

(** A picture with and without an original place, a script with a wrong suffix, and something of unknown type at the top. *)
Definition hex_opened (b e : Z) : res (str * list Z) :=
  if b =? 10 then Ok ($"image/png", [1; 2]) else if b =? 20 then Ok ($"image/png", [3]) else if b =? 30 then Ok ($"text/javascript", [4; 5; 6]) else Ok ($"x/y", [7]).
Definition hex_guess (mime : str) : option str := if str_eqb mime $"image/png" then Some $".png" else None.
Definition hex_digest (b : list Z) : str := match b with [3] => $"f3" | _ => $"e0" end.
Definition hex_files := [mkE $"img/A.PNG" 10 14; mkE [] 20 24; mkE $"http://h/run.php?x" 30 34; mkE $"/" 40 44].
Example C120_case : plain_digest hex_digest /\ (forall mime e, hex_guess mime = Some e -> good_suffix e) /\ NoDup (map e_start hex_files) /\
  shown_at hex_opened hex_guess hex_digest (fun s => s) (mkE $"img/A.PNG" 10 14) [$"img"; $"A.PNG"] $"image/png" [1; 2] /\
  shown_at hex_opened hex_guess hex_digest (fun s => s) (mkE [] 20 24) [$"f3.png"] $"image/png" [3] /\
  shown_at hex_opened hex_guess hex_digest (fun s => s) (mkE $"http://h/run.php?x" 30 34) [$"http:"; $"h"; $"run.php?x.js"] $"text/javascript" [4; 5; 6].
Proof.
  assert (G : good_suffix $".png") by (right; exists $"png"; split; [reflexivity|split; cbn; intuition discriminate]).
  assert (J : good_suffix $".js") by (right; exists $"js"; split; [reflexivity|split; cbn; intuition discriminate]).
  assert (P : suffix_of hex_guess $"image/png" $".png").
  { right. split; [|now left]. intros m E. assert (ends_with $"/javascript" $"image/png" = true) as X by (apply ends_with_spec; now exists m). discriminate X. }
  split.
  { assert (forall b, hex_digest b = $"f3" \/ hex_digest b = $"e0") as H by (intros [|x [|y b]]; cbn; auto; destruct x as [|x|x]; auto; destruct x as [[x|x|]|x|]; auto).
    intros b. destruct (H b) as [-> | ->]; (split; [discriminate|split; cbn; intuition discriminate]). }
  split; [intros mime e; unfold hex_guess; destruct (str_eqb _ _); [intros [= <-]; exact G|discriminate]|].
  split; [cbn; repeat (constructor; [cbn; lia|]); constructor|]. split; [|split]; (split; [reflexivity|]).
  - exists $".png", $"img/A.PNG". split; [exact P|]. split; [|reflexivity]. apply titled_as_it_was; [split; [discriminate|intros r; discriminate]|]. right.
    exists $"img/", $"A", $".PNG". split; [reflexivity|]. split; [right; now exists $"img"|]. split; [cbn; intuition discriminate|]. split; [exists "A"%char; split; [now left|discriminate]|].
    apply lower_str_same. reflexivity.
  - exists $".png", $"f3.png". split; [exact P|]. split; [|reflexivity]. change $"f3.png" with (hex_digest [3] ++ $".png"). apply titled_unknown. intros [H _]. now apply H.
  - exists $".js", $"http://h/run.php?x.js". split; [left; split; [now exists $"text"|reflexivity]|]. split; [|reflexivity].
    change $"http://h/run.php?x.js" with ($"http://h/run.php?x" ++ $".js"). apply titled_with_suffix; [split; [discriminate|intros r; discriminate]|discriminate|].
    intros H. apply (splitext1_suffix _ $"js") in H; [|cbn; intuition discriminate..]. apply lower_str_same in H. discriminate H.
Qed.

(** Not so, wanted: every embedded file is found somewhere.  A file of unknown type that came from "/" gets the root folder for a path. *)
Theorem C120_root_refuted :
  exists f files mime contents, html_index hex_opened hex_guess hex_digest (fun s => s) 0 [f] = Ok files /\ hex_opened (e_start f) (e_end f) = Ok (mime, contents) /\ contents <> [] /\
  forall now uid gid sh loc, any_order sh -> Forall proper_name loc -> loc <> [] -> lookup now uid gid sh files (written loc) 0 = None.
Proof.
  exists (mkE $"/" 40 44). eexists. exists $"x/y", [7]. split; [reflexivity|]. split; [reflexivity|]. split; [discriminate|].
  intros now uid gid sh loc Hsh P N.
  change (build [Batch _]) with (build [Batch (map (row_for hex_opened hex_guess hex_digest (fun s => s) 0) [mkE $"/" 40 44])]).
  apply (member_lookup_none (row_for hex_opened hex_guess hex_digest (fun s => s) 0) (location_of hex_opened hex_guess hex_digest (fun s => s))); auto.
  - intros e. apply row_fields.
  - intros e. apply row_fields.
  - intros e. unfold location_of. destruct (hex_opened (e_start e) (e_end e)) as [[m c]|]; [apply denotes_proper|constructor].
  - intros e rest [<- |[]] E. destruct loc; [contradiction|discriminate E].
Qed.
Print Assumptions C120_root_refuted.
