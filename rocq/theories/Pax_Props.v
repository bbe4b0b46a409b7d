(** Theorems about extended attributes in pax headers (C95). *)
From Coq Require Import Ascii String Sorting.Permutation.
From Verif Require Import PyBase PyDict PyStr PyInt FileInfo Index_Model Xattr_Model Xattr_Spec Xattr_Props Pax_Model Pax_Spec Pax_Proofs.
Local Open Scope Z_scope.

(** Base64 text without padding is decoded to the bytes it encodes, for all byte strings. *)
Theorem C95_base64 data text : base64 data text -> decode_unpadded_base64 text = Ok data.
Proof. exact (decode_unpadded_spec data text). Qed.
Print Assumptions C95_base64.

Section Shown.
  Variable replace_invalid : str -> str.
  Variable R : Type.
  (** A member with its header position, its pax headers, its file row and the attributes it has. *)
  Definition good_member (m : Z * list (str * str) * R * list (str * str)) : Prop :=
    let '(_, pax_headers, _, attrs) := m in
    holds_xattrs pax_headers attrs /\ forall name value, In (name, value) attrs -> replace_invalid name = name.

  Lemma last_value_In {V} (h : list (Z * str * V)) oh key v : last_value h oh key = Some v -> In (oh, key, v) h.
  Proof.
    induction h as [|[[o k] w] h IH]; [discriminate|]. cbn [last_value]. destruct (last_value h oh key).
    - intros [= ->]. right. now apply IH.
    - destruct ((o =? oh) && str_eqb k key) eqn:E; [|discriminate]. intros [= ->]. left. apply andb_true_iff in E as [E1 E2].
      apply Z.eqb_eq in E1. apply str_eqb_eq in E2. congruence.
  Qed.
  Lemma last_value_None {V} (h : list (Z * str * V)) oh key v : In (oh, key, v) h -> exists w, last_value h oh key = Some w.
  Proof.
    induction h as [|[[o k] w] h IH]; [intros []|]. cbn [last_value]. intros [[= -> -> ->]|I].
    - destruct (last_value h oh key); [eauto|]. rewrite Z.eqb_refl, str_eqb_refl. cbn. eauto.
    - destruct (IH I) as (x & ->). eauto.
  Qed.

  Lemma serial_rows ms : Forall good_member ms -> exists xrows,
    process_serial replace_invalid (map fst ms) = (map (fun m => snd (fst m)) ms, xrows, None) /\
    forall oh name value, In (oh, name, value) xrows <-> exists h row attrs, In (oh, h, row, attrs) ms /\ In (name, value) attrs.
  Proof.
    induction 1 as [|[[[o h] row] attrs] ms [Hm Hv] _ (xrows & E & IH)].
    - exists []. split; [reflexivity|]. intros oh name value. split; [intros []|]. intros (h & row & attrs & [] & _).
    - destruct (tar_xattrs_spec replace_invalid h attrs Hm Hv) as (d & Ed & Nd & Sd).
      exists (xattr_rows o d ++ xrows). cbn [map fst snd process_serial]. rewrite Ed. rewrite E. split; [reflexivity|].
      intros oh name value. rewrite in_app_iff, IH. unfold xattr_rows. rewrite in_map_iff. split.
      + intros [([k v] & [= <- <- <-] & I)|(h' & row' & attrs' & I & J)].
        * exists h, row, attrs. split; [now left|now apply Sd].
        * exists h', row', attrs'. split; [now right|assumption].
      + intros (h' & row' & attrs' & [[= <- <- <- <-]|I] & J).
        * left. exists (name, value). split; [reflexivity|now apply Sd].
        * right. eauto.
  Qed.

  (** After an archive is indexed, each member shows exactly its attributes, with the exact values. *)
  Theorem C95_shown (shuffle : list (Z * str * str) -> list (Z * str * str)) ms : (forall l, Permutation (shuffle l) l) ->
    Forall good_member ms -> NoDup (map (fun '(position, _, _, _) => position) ms) ->
    exists rows xrows, process_serial replace_invalid (map fst ms) = (rows, xrows, None) /\ rows = map (fun '(_, _, row, _) => row) ms /\
    forall position headers row attrs info, In (position, headers, row, attrs) ms -> entry_at info position ->
      (forall name value, get_xattr shuffle (setxattrs no_xattrs xrows) info name = Some value <-> In (name, value) attrs) /\
      Permutation (list_xattr shuffle (setxattrs no_xattrs xrows) info) (map fst attrs).
  Proof.
    intros Hsh Hm Hn. destruct (serial_rows ms Hm) as (xrows & E & X).
    exists (map (fun m => snd (fst m)) ms), xrows. split; [exact E|]. split; [apply map_ext; now intros [[[o h] row] attrs]|].
    intros position headers row attrs info I He.
    destruct (C14_xattrs_last_write str shuffle Hsh xrows info position He) as (G & Nl & Ll).
    assert (Gm : good_member (position, headers, row, attrs)) by (rewrite Forall_forall in Hm; now apply Hm).
    destruct Gm as ((_ & _ & _ & _ & Na) & _).
    assert (U : forall h' r' a', In (position, h', r', a') ms -> a' = attrs).
    { clear - Hn I. intros h' r' a' J. induction ms as [|[[[o h] r] a] ms IH]; [destruct I|]. cbn [map] in Hn. apply NoDup_cons_iff in Hn as [N1 N2].
      destruct I as [[= -> -> -> ->]|I], J as [[= -> -> ->]|J]; try reflexivity.
      - exfalso. apply N1. apply in_map_iff. now exists (position, h', r', a').
      - exfalso. apply N1. apply in_map_iff. now exists (position, headers, row, attrs).
      - now apply IH. }
    assert (XI : forall name value, In (position, name, value) xrows <-> In (name, value) attrs).
    { intros name value. rewrite X. split; [intros (h' & r' & a' & J & K); now rewrite <- (U _ _ _ J)|]. intros J. eauto. }
    split.
    - intros name value. rewrite G. split.
      + intros L. apply XI. now apply last_value_In.
      + intros J. destruct (last_value_None xrows position name value) as (w & L); [now apply XI|]. rewrite L. f_equal.
        apply last_value_In, XI in L. assert (F : dget str_eqb attrs name = Some w) by now apply (NoDup_dget str_eqb str_eqb_spec).
        assert (F' : dget str_eqb attrs name = Some value) by now apply (NoDup_dget str_eqb str_eqb_spec). congruence.
    - apply NoDup_Permutation; [assumption|assumption|]. intros name. rewrite Ll. split.
      + intros (v & J). apply XI in J. apply (in_map fst) in J. exact J.
      + intros J. apply in_map_iff in J as ([n v] & <- & J). exists v. now apply XI.
  Qed.
End Shown.
Print Assumptions C95_shown.

(** A member with one attribute under both keys and one under libarchive's only. *)
Definition ex_headers : list (str * str) :=
  [($"path", $"a"); ($"SCHILY.xattr.user.a", $"Man"); ($"LIBARCHIVE.xattr.user.a", $"TWFu"); ($"LIBARCHIVE.xattr.user.%3d%25", $"TWE")].
Example C95_example : good_member (fun s => s) unit (512, ex_headers, tt, [($"user.a", $"Man"); ($"user.=%", $"Ma")]) /\
  tar_xattrs (fun s => s) ex_headers = Ok [($"user.a", $"Man"); ($"user.=%", $"Ma")].
Proof.
  split; [|reflexivity]. split; [|auto].
  assert (Q : quoted $"user.a" $"user.a") by (do 6 (apply quo_plain; [discriminate|]); constructor).
  assert (Q' : quoted $"user.=%" $"user.%3d%25").
  { do 5 (apply quo_plain; [discriminate|]). apply (quo_hex "="%char); [now left|now right|]. apply (quo_hex "%"%char); [now left|now left|]. constructor. }
  assert (B : base64 $"Man" $"TWFu") by (apply (b64_3 "M" "a" "n" [] []); constructor).
  assert (B' : base64 $"Ma" $"TWE") by apply (b64_2 "M" "a").
  repeat split.
  - intros name value I. repeat (destruct I as [[= <- <-]|I]; [now left|] || (destruct I as [I|I]; [discriminate|])). destruct I.
  - intros q b I. destruct I as [I|[I|[I|[I|[]]]]]; try discriminate; injection I as <- <-.
    + exists $"user.a", $"Man". split; [now left|auto].
    + exists $"user.=%", $"Ma". split; [right; now left|auto].
  - intros name value [[= <- <-]|[[= <- <-]|[]]].
    + left. right. now left.
    + right. exists $"user.%3d%25", $"TWE". split; [do 3 right; now left|auto].
  - repeat constructor; cbn; intuition discriminate.
  - repeat constructor; cbn; intuition discriminate.
Qed.

(** A value whose length is one more than a multiple of four is no base64 text.  It ends the whole indexing: neither the member
    nor the members behind it are stored. *)
Theorem C95_broken_value_refuted : forall (R : Type) (replace_invalid : str -> str) (a b c : R),
  process_serial replace_invalid [(0, [], a); (512, [($"LIBARCHIVE.xattr.user.x", $"TWFuT")], b); (1536, [], c)] = ([a], [], Some ValueError).
Proof. reflexivity. Qed.
Print Assumptions C95_broken_value_refuted.

(** A name that is not valid UTF-8 is not shown as it is. *)
Theorem C95_invalid_name_refuted : forall replace_invalid name text, quoted name text -> In "%"%char text -> replace_invalid name <> name ->
  exists value encoded, base64 value encoded /\
  exists d, tar_xattrs replace_invalid [($"LIBARCHIVE.xattr." ++ text, encoded)] = Ok d /\ ~ In (name, value) d.
Proof.
  intros ri name text Q P V. exists $"Man", $"TWFu". split; [apply (b64_3 "M" "a" "n" [] []); constructor|].
  unfold tar_xattrs. cbn [libarchive_xattrs]. 
  assert (W : without libarchive ($"LIBARCHIVE.xattr." ++ text) = Some text) by now apply without_spec. rewrite W.
  change (decode_unpadded_base64 $"TWFu") with (Ok $"Man"). eexists. split; [reflexivity|].
  assert (E : schily_xattrs [($"LIBARCHIVE.xattr." ++ text, $"TWFu")] = []) by reflexivity. rewrite E. cbn [dset dupdate fold_left].
  intros [[= I]|[]]. apply V. rewrite <- I at 2. unfold unquote.
  assert (F : existsb (char_eqb "%") text = true) by (apply existsb_exists; exists "%"%char; split; [assumption|reflexivity]).
  rewrite F, (unquote_spec _ _ Q). reflexivity.
Qed.
Print Assumptions C95_invalid_name_refuted.
Example C95_invalid_name_example : let name := [ascii_of_nat 255] in
  quoted name $"%ff" /\ In "%"%char $"%ff" /\ (fun _ : str => $"?") name <> name.
Proof. split; [|split; [now left|discriminate]]. apply (quo_hex (ascii_of_nat 255)); [now right|now right|constructor]. Qed.
