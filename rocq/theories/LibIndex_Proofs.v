(** Lemmas about the index that is built with libarchive. *)
From Coq Require Import Ascii String Permutation Sorting.Sorted.
From Verif Require Import PyBase PyDict PyStr Path_Model Path_Spec Path_Proofs FileInfo Strip_Model Index_Model Index_Spec Index_Proofs Build_Proofs
  SeqIndex_Proofs Tar_Model Tar_Proofs Lib_Model Lib_Spec LibIndex_Model LibIndex_Spec.
Local Open Scope Z_scope.

Section LibIndex.
  Context {A : Type}.
  Variable transform : str -> str.
  Variable raw : option str.

  Definition raw_path (count : nat) : option str := if Nat.eqb count 0 then raw else None.

  Lemma row_fields count (e : entry A) : let r := convert_to_row transform count (raw_path count) e in
    full_path r = written (seen_at transform raw count e) /\ ~ In slash (r_name r) /\ r_offsetheader r = Z.of_nat count /\
    r_size r = match e_size e with Some n => n | None => Z.of_nat (length (e_data e)) end /\ r_mtime r = e_mtime e /\
    r_linkname r = entry_linkname e /\
    r_mode r = Z.lor (Z.land (e_mode e) 511) (match entry_linkname e with [] => if is_directory e then S_IFDIR else S_IFREG | _ => S_IFLNK end).
  Proof.
    unfold convert_to_row. rewrite normpath_written.
    replace (denotes (transform match raw_path count with Some (c :: p) => c :: p | _ => e_path e end)) with (seen_at transform raw count e).
    2: { unfold seen_at, raw_path. destruct count; cbn [Nat.eqb]; [|reflexivity]. destruct raw as [[|]|]; reflexivity. }
    destruct (split_last_written (seen_at transform raw count e) (denotes_proper _)) as (a & b & -> & E & N).
    cbn. repeat split; try assumption. destruct (entry_linkname e); reflexivity.
  Qed.

  Lemma row_backend count (e : entry A) : backend_row (convert_to_row transform count (raw_path count) e).
  Proof.
    destruct (row_fields count e) as (F & N & _). split; [exact N|].
    pose proof (denotes_proper (transform (match count, raw with O, Some (c :: name) => c :: name | _, _ => e_path e end)) : Forall proper_name (seen_at transform raw count e)) as P.
    destruct (seen_at transform raw count e) as [|x l _] eqn:E using rev_ind.
    - left. unfold full_path in F. destruct (r_path _) as [|c p] eqn:Ep; cbn in F; [split; [exact Ep|unfold written in F; cbn in F; congruence]|].
      exfalso. injection F as _ F. destruct p; discriminate.
    - right. exists l, x. apply Forall_app in P as [P1 P2]. inversion P2; subst. split; [exact P1|]. split; assumption.
  Qed.

  Lemma rows_in k entries r : In r (entry_rows transform k raw entries) ->
    exists count (e : entry A), nth_error entries count = Some e /\ r = convert_to_row transform (k + count) (raw_path (k + count)) e.
  Proof.
    revert k. induction entries as [|e entries IH]; intros k I; [destruct I|]. destruct I as [<-|I].
    - exists 0%nat, e. split; [reflexivity|]. now rewrite Nat.add_0_r.
    - destruct (IH _ I) as (count & e' & H & ->). exists (S count), e'. split; [exact H|]. now rewrite Nat.add_succ_r.
  Qed.

  Lemma rows_sorted (entries : list (entry A)) : forall k, StronglySorted (fun a b => r_offsetheader a < r_offsetheader b) (entry_rows transform k raw entries).
  Proof.
    induction entries as [|e entries IH]; intros k; constructor; [apply IH|]. apply Forall_forall. intros r I.
    destruct (rows_in _ _ _ I) as (count & e' & _ & ->). fold (raw_path k).
    destruct (row_fields k e) as (_ & _ & -> & _). destruct (row_fields (S k + count) e') as (_ & _ & -> & _). lia.
  Qed.

  Lemma rows_split entries : forall k count (e : entry A), nth_error entries count = Some e ->
    exists before after, entry_rows transform k raw entries = before ++ convert_to_row transform (k + count) (raw_path (k + count)) e :: after /\
    forall r, In r after -> exists later e', (count < later)%nat /\ nth_error entries later = Some e' /\ r = convert_to_row transform (k + later) (raw_path (k + later)) e'.
  Proof.
    induction entries as [|e0 entries IH]; intros k count e E; [destruct count; discriminate|]. destruct count as [|count].
    - cbn in E. injection E as ->. exists [], (entry_rows transform (S k) raw entries). rewrite Nat.add_0_r. split; [reflexivity|].
      intros r I. destruct (rows_in _ _ _ I) as (c & e' & H & ->). exists (S c), e'. split; [lia|]. split; [exact H|]. now rewrite Nat.add_succ_r.
    - cbn [nth_error] in E. destruct (IH (S k) count e E) as (before & after & Eq & H). exists (convert_to_row transform k (raw_path k) e0 :: before), after.
      cbn [entry_rows]. rewrite Eq. rewrite Nat.add_succ_r. split; [reflexivity|].
      intros r I. destruct (H r I) as (later & e' & L & N & ->). exists (S later), e'. split; [lia|]. split; [exact N|]. now rewrite Nat.add_succ_r.
  Qed.

  Lemma batches_rows limit rows : forall pending, inserted_rows (batches limit pending rows) = pending ++ rows.
  Proof.
    induction rows as [|r rows IH]; intros pending; cbn [batches].
    - destruct pending; [reflexivity|]. cbn. now rewrite !app_nil_r.
    - destruct (Nat.ltb _ _).
      + change (inserted_rows (Batch (pending ++ [r]) :: batches limit [] rows)) with ((pending ++ [r]) ++ inserted_rows (batches limit [] rows)).
        rewrite IH. cbn [app]. now rewrite <- app_assoc.
      + rewrite IH. now rewrite <- app_assoc.
  Qed.

  Section Table.
    Variable limit : nat.
    Variable entries : list (entry A).
    Let is := create_lib_index transform limit raw entries.

    Lemma lib_rows : inserted_rows is = entry_rows transform 0 raw entries.
    Proof. apply batches_rows. Qed.
    Lemma lib_backend r : In r (inserted_rows is) -> backend_row r.
    Proof. rewrite lib_rows. intros I. destruct (rows_in _ _ _ I) as (count & e & _ & ->). apply row_backend. Qed.
    Lemma lib_sorted : StronglySorted (fun a b => r_offsetheader a < r_offsetheader b) (inserted_rows is).
    Proof. rewrite lib_rows. apply rows_sorted. Qed.

    Lemma lib_lookup now uid gid sh p count e : any_order sh -> starts_with $"../" p = false -> denotes p <> [] ->
      newest transform raw entries count e (denotes p) ->
      (entry_linkname e = [] /\ is_directory e = true \/ nothing_below transform raw entries (denotes p)) ->
      lookup now uid gid sh (build is) p 0 = Some (row_to_file_info (convert_to_row transform count (raw_path count) e)).
    Proof.
      intros Hsh Hp Hr (N1 & N2 & N3) Hb. destruct (rows_split entries 0 count e N1) as (before & after & E & Ha). cbn [Nat.add] in *.
      destruct (row_fields count e) as (F1 & F2 & F3 & F4 & F5 & F6 & F7).
      apply (seq_lookup is lib_backend lib_sorted now uid gid sh p before _ after); auto.
      - now rewrite lib_rows.
      - now rewrite F1, N2.
      - intros r' I. destruct (Ha r' I) as (later & e' & L & N & ->). destruct (row_fields later e') as (F1' & _). rewrite F1, F1'.
        intros W. apply written_inj in W; [|apply denotes_proper|apply denotes_proper]. apply (N3 later e' L N). now rewrite W.
      - destruct Hb as [[L D]|Hb]; [left|right].
        + rewrite F7, L, D. unfold is_dir_mode. rewrite Z.land_lor_distr_l, <- Z.land_assoc. change (Z.land 511 S_IFMT) with 0. now rewrite Z.land_0_r.
        + intros r' I rest Hrest Pr. rewrite lib_rows in I. destruct (rows_in _ _ _ I) as (c & e' & N & ->). cbn [Nat.add].
          destruct (row_fields c e') as (F1' & _). rewrite F1'. intros W.
          assert (P : Forall proper_name (denotes p ++ rest)) by (apply Forall_app; split; [apply denotes_proper|assumption]).
          apply written_inj in W; [|apply denotes_proper|exact P]. now apply (Hb c e' rest N Hrest).
    Qed.
  End Table.
End LibIndex.

Lemma cut_suffix_spec suffixes fname :
  (exists ext s, In s suffixes /\ map lower ext = map lower s /\ fname = cut_suffix suffixes fname ++ $"." ++ ext /\ cut_suffix suffixes fname <> []) \/
  (cut_suffix suffixes fname = fname /\ forall stem ext s, In s suffixes -> map lower ext = map lower s -> fname = stem ++ $"." ++ ext -> stem = []).
Proof.
  induction suffixes as [|s suffixes IH]; [right; split; [reflexivity|intros ? ? ? []]|]. cbn [cut_suffix].
  destruct (ends_with (map lower ($"." ++ s)) (map lower fname)) eqn:E; cbn [andb].
  - apply ends_with_spec in E as (t & Et). apply map_eq_app in Et as (a & b & Ef & Ea & Eb).
    assert (Lb : length b = length ($"." ++ s)) by (rewrite <- (map_length lower), Eb; apply map_length).
    destruct b as [|c b]; [discriminate|]. assert (c = dotc) as ->.
    { change ($"." ++ s) with (dotc :: s) in Eb. cbn [map] in Eb. injection Eb as E1 _. revert E1. clear. destruct c as [[] [] [] [] [] [] [] []]; cbv; congruence. }
    change ($"." ++ s) with (dotc :: s) in *. cbn [map] in Eb. injection Eb as Eb.
    destruct (Nat.ltb_spec (length (dotc :: s)) (length fname)) as [L|L].
    + left. exists b, s. split; [now left|]. split; [assumption|].
      assert (firstn (length fname - length (dotc :: s)) fname = a) as ->.
      { rewrite Ef, <- Lb, app_length, Nat.add_sub, firstn_app, Nat.sub_diag, firstn_all. apply app_nil_r. }
      split; [assumption|]. intros ->. cbn [app] in Ef. rewrite Ef, Lb in L. lia.
    + destruct IH as [(ext & s' & I & H)|[H1 H2]]; [left; exists ext, s'; split; [now right|assumption]|].
      right. split; [assumption|]. intros stem ext s' [<-|I] Ex Es; [|now apply (H2 stem ext s')].
      rewrite Es, !app_length in L. change (length $".") with 1%nat in L. cbn [length] in L. rewrite <- (map_length lower ext), Ex, map_length in L. destruct stem; [reflexivity|cbn in L; lia].
  - destruct IH as [(ext & s' & I & H)|[H1 H2]]; [left; exists ext, s'; split; [now right|assumption]|].
    right. split; [assumption|]. intros stem ext s' [<-|I] Ex Es; [|now apply (H2 stem ext s')].
    exfalso. apply Bool.not_true_iff_false in E. apply E. apply ends_with_spec. exists (map lower stem). rewrite Es. now rewrite !map_app, Ex.
Qed.
