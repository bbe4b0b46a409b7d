From Coq Require Import Ascii String Sorting.Permutation.
From Verif Require Import PyBase PyDict PyStr Path_Model Path_Spec Path_Proofs FileInfo Strip_Model Index_Model Index_Spec Index_Proofs LibIndex_Model LibIndex_Proofs
  MemFile_Spec Stencil_Model Stencil_Spec Stencil_Props Sparse_Model TarRead_Model Single_Model Single_Spec.
Local Open Scope Z_scope.

Section Proofs.
  Variable utf8 : str -> bool.

  Lemma read_name_spec : forall rest name, zero_terminated rest name -> read_name rest = Some name.
  Proof.
    intros rest name (zero & after & -> & Hz & Hn). induction Hn as [|c name Hc _ IH]; cbn [app read_name].
    - change (byte zero) with (code zero). now rewrite Hz.
    - change (byte c) with (code c). destruct (Z.eqb_spec (code c) 0); [contradiction|]. now rewrite IH.
  Qed.

  Lemma flag_bit x n : 0 <= n -> negb (Z.land x (Z.shiftl 1 n) =? 0) = Z.testbit x n.
  Proof.
    intros Hn. destruct (Z.testbit x n) eqn:E.
    - apply negb_true_iff, Z.eqb_neq. intros H.
      assert (T : Z.testbit (Z.land x (Z.shiftl 1 n)) n = true).
      { rewrite Z.land_spec, E, Z.shiftl_spec by assumption. now rewrite Z.sub_diag. }
      rewrite H, Z.bits_0 in T. discriminate.
    - apply negb_false_iff, Z.eqb_eq. apply Z.bits_inj'. intros k Hk. rewrite Z.land_spec, Z.bits_0, Z.shiftl_spec by assumption.
      destruct (Z.eq_dec k n) as [->|N]; [now rewrite E|].
      assert (Z.testbit 1 (k - n) = false) as ->; [|apply andb_false_r].
      destruct (Z.ltb_spec k n); [apply Z.testbit_neg_r; lia|]. destruct (k - n) as [|p|p] eqn:D; [lia| |lia].
      now destruct p.
  Qed.

  Lemma info_gzip file flags m0 m1 m2 m3 rest : gzip_file file flags m0 m1 m2 m3 rest ->
    get_gzip_info utf8 file =
    if Z.testbit flags 2 then Err StructError
    else if Z.testbit flags 3 then
      match read_name rest with
      | Some name => if utf8 name then Ok (Some (name, time_of m0 m1 m2 m3)) else Err UnicodeError
      | None => Err OutOfFuel
      end
    else Ok None.
  Proof.
    intros (id1 & id2 & method & flag & xfl & os & -> & H1 & H2 & H3 & <-). cbn [app get_gzip_info].
    change (byte id1) with (code id1). change (byte id2) with (code id2). change (byte method) with (code method).
    rewrite H1, H2, H3. cbn [Z.eqb negb orb Pos.eqb]. change (byte flag) with (code flag). rewrite !flag_bit by lia. reflexivity.
  Qed.

  Lemma info_other file : (forall flags m0 m1 m2 m3 rest, ~ gzip_file file flags m0 m1 m2 m3 rest) ->
    get_gzip_info utf8 file = Ok None \/ get_gzip_info utf8 file = Err StructError.
  Proof.
    intros N. unfold get_gzip_info.
    destruct file as [|id1 [|id2 [|method [|flag [|m0 [|m1 [|m2 [|m3 [|xfl [|os rest]]]]]]]]]]; try (right; reflexivity).
    destruct (negb (byte id1 =? 31) || negb (byte id2 =? 139) || negb (byte method =? 8)) eqn:E; [left; reflexivity|].
    exfalso. apply orb_false_iff in E as (E & E3). apply orb_false_iff in E as (E1 & E2).
    apply negb_false_iff, Z.eqb_eq in E1, E2, E3.
    apply (N (code flag) m0 m1 m2 m3 rest). exists id1, id2, method, flag, xfl, os. repeat split; assumption.
  Qed.

  Lemma lower_same s : lower_case s = map lower s.
  Proof.
    unfold lower_case. apply map_ext. intros c. destruct c as [[] [] [] [] [] [] [] []]; reflexivity.
  Qed.

  Lemma suffix_known ext : known_suffix ext <-> exists s, In s suffixes /\ map lower ext = map lower s.
  Proof.
    unfold known_suffix. rewrite lower_same.
    assert (L : map (map lower) suffixes = suffixes) by reflexivity.
    change [$"gz"; $"bz2"; $"bzip2"; $"gzip"; $"xz"; $"zst"; $"zstd"; $"zz"; $"zlib"] with suffixes.
    rewrite <- L at 1. rewrite in_map_iff. split; intros (s & A & B); exists s; auto.
  Qed.

  Lemma cut_without file : without_suffix file (cut_suffix suffixes file).
  Proof.
    destruct (cut_suffix_spec suffixes file) as [(ext & s & I & E & F & N)|(E & H)].
    - left. exists ext. split; [apply suffix_known; eauto|auto].
    - right. split; [assumption|]. intros stem ext K F. apply suffix_known in K as (s & I & L). now apply (H stem ext s).
  Qed.

  Lemma basename_last path : last_name path (basename path).
  Proof.
    unfold basename. destruct (rsplit1 slash path) as [(a, b)|] eqn:E.
    - apply rsplit1_Some in E as (-> & N). split; eauto.
    - apply rsplit1_None in E. split; auto.
  Qed.

  Lemma last_name_unique path a b : last_name path a -> last_name path b -> a = b.
  Proof.
    intros (Na & [->|(fa & Ea)]) (Nb & [Eb|(fb & Eb)]).
    - exact Eb.
    - subst. exfalso. apply Na. apply in_or_app. right. now left.
    - subst. exfalso. apply Nb. apply in_or_app. right. now left.
    - assert (rsplit1 slash path = Some (fa, a)) by (apply rsplit1_Some; auto).
      assert (rsplit1 slash path = Some (fb, b)) by (apply rsplit1_Some; auto). congruence.
  Qed.

  Lemma no_dot ext : known_suffix ext -> ~ In dotc ext.
  Proof.
    intros K. apply suffix_known in K as (s & I & L). intros D.
    assert (D' : In dotc (map lower s)) by (rewrite <- L; apply in_map_iff; exists dotc; auto).
    repeat (destruct I as [<-|I]; [vm_compute in D'; intuition discriminate|]). destruct I.
  Qed.

  Lemma without_unique file a b : without_suffix file a -> without_suffix file b -> a = b.
  Proof.
    intros [(ea & Ka & Fa & Na)|(-> & Ha)] [(eb & Kb & Fb & Nb)|(-> & Hb)].
    - change ($".") with [dotc] in *. cbn [app] in *. assert (rsplit1 dotc file = Some (a, ea)) by (apply rsplit1_Some; split; [assumption|now apply no_dot]).
      assert (rsplit1 dotc file = Some (b, eb)) by (apply rsplit1_Some; split; [assumption|now apply no_dot]). congruence.
    - exfalso. apply Na. now apply (Hb a ea).
    - exfalso. apply Nb. now apply (Ha b eb).
    - reflexivity.
  Qed.

  Lemma archive_name_cut archive name : archive_name archive name -> name = cut_suffix suffixes (basename archive).
  Proof.
    intros (file & L & W). assert (file = basename archive) as -> by (eapply last_name_unique; [exact L|apply basename_last]).
    eapply without_unique; [exact W|apply cut_without].
  Qed.
  Lemma cut_archive_name archive : archive_name archive (cut_suffix suffixes (basename archive)).
  Proof. exists (basename archive). split; [apply basename_last|apply cut_without]. Qed.

  Lemma seen_name archive raw name mtime : readable_name utf8 raw -> seen_as archive raw name mtime ->
    name_and_time utf8 archive raw = Some (name, mtime).
  Proof.
    intros R S. unfold name_and_time. destruct S as [file flags m0 m1 m2 m3 rest name G N Zt|file flags m0 m1 m2 m3 rest name G N Ar|file name G Ar|name Ar].
    - destruct (R _ _ _ _ _ _ _ _ eq_refl G N Zt) as (X & U). rewrite (info_gzip _ _ _ _ _ _ _ G).
      unfold has_extra in X. apply not_true_is_false in X. rewrite X. unfold has_name in N. rewrite N.
      now rewrite (read_name_spec _ _ Zt), U.
    - apply archive_name_cut in Ar as ->. rewrite (info_gzip _ _ _ _ _ _ _ G). unfold has_name in N. apply not_true_is_false in N.
      destruct (Z.testbit flags 2); [reflexivity|]. now rewrite N.
    - apply archive_name_cut in Ar as ->. destruct (info_other _ G) as [-> | ->]; reflexivity.
    - now apply archive_name_cut in Ar as ->.
  Qed.
End Proofs.

  (** One row in the root folder. *)
  Lemma build_one r : r_path r = [] -> build [One r] = [r].
  Proof. destruct r as [p n a1 a2 a3 a4 a5 a6 a7 a8 a9 b1 b2 b3 a10]. cbn [r_path]. intros ->. reflexivity. Qed.

  Lemma perm_single {X} (l : list X) x : Permutation l [x] -> l = [x].
  Proof. intros H. apply Permutation_sym in H. now apply Permutation_length_1_inv in H. Qed.
  Lemma perm_nil_ {X} (l : list X) : Permutation l [] -> l = [].
  Proof. intros H. apply Permutation_sym in H. now apply Permutation_nil. Qed.

  Lemma list_one sh r : any_order sh -> r_path r = [] -> r_name r <> [] ->
    index_list sh [r] $"/" = Some [(r_name r, row_to_file_info r)].
  Proof.
    intros S P N. unfold index_list. change (rstrip slash (query_normpath $"/")) with (@nil ascii).
    cbn [filter]. rewrite P. change (str_eqb [] []) with true. cbn [filter].
    rewrite (perm_single _ _ (S [r])). cbn [sort_by fold_left insert_sorted map dict_of].
    change (dict_of str_eqb [(r_name r, row_to_file_info r)]) with [(r_name r, row_to_file_info r)].
    unfold ddel. cbn [filter fst]. destruct (r_name r) as [|c n] eqn:E; [contradiction|]. reflexivity.
  Qed.

  Lemma lookup_one now uid gid sh r path v loc n : any_order sh -> r_path r = [] -> starts_with $"../" path = false -> denotes path = loc ++ [n] ->
    proper_name n -> lookup now uid gid sh [r] path v =
    if match loc with [] => str_eqb (r_name r) n | _ => false end && ((v =? 0) || (v =? 1)) then Some (row_to_file_info r) else None.
  Proof.
    intros S P Hp D Pn. unfold lookup. rewrite query_written by assumption. rewrite D, written_snoc.
    assert (Pl : Forall proper_name loc).
    { destruct (denotes_snoc path) as (loc' & n' & D' & Fl & _); [rewrite D; now destruct loc|].
      rewrite D in D'. apply app_inj_tail in D' as (-> & _). exact Fl. }
    destruct Pn as (Pn0 & _ & _ & Pn).
    assert (NR : str_eqb (folder_of loc ++ slash :: n) $"/" = false).
    { apply not_true_is_false. intros E. destruct (str_eqb_spec (folder_of loc ++ slash :: n) $"/") as [E'|]; [|discriminate].
      destruct (folder_of loc) as [|a f]; cbn [app] in E'; [injection E' as E'; contradiction|]. injection E' as _ E'. destruct f; discriminate. }
    rewrite NR. assert (rsplit1 slash (folder_of loc ++ slash :: n) = Some (folder_of loc, n)) as -> by (apply rsplit1_Some; auto).
    cbn [filter]. rewrite P.
    assert (F : str_eqb [] (folder_of loc) = match loc with [] => true | _ => false end).
    { destruct loc as [|a loc]; [reflexivity|]. apply not_true_is_false. intros E.
      destruct (str_eqb_spec [] (folder_of (a :: loc))) as [E'|]; [|discriminate]. cbn in E'. discriminate. }
    rewrite F. destruct loc as [|a loc].
    - cbn [andb]. destruct (str_eqb (r_name r) n) eqn:E; cbn [andb].
      + rewrite (perm_single _ _ (S [r])).
        destruct (Z.leb_spec v 0), (Z.ltb_spec 0 v); try lia; cbn [sort_by fold_left insert_sorted].
        * destruct (Z.eqb_spec v 0) as [->|]; [reflexivity|]. destruct (Z.eqb_spec v 1); [lia|]. cbn [orb].
          unfold zskip. destruct (Z.to_nat (- v)) as [|k] eqn:K; [lia|]. cbn. now rewrite skipn_nil.
        * destruct (Z.eqb_spec v 0); [lia|]. destruct (Z.eqb_spec v 1) as [->|]; [reflexivity|]. cbn [orb].
          unfold zskip. destruct (Z.to_nat (v - 1)) as [|k] eqn:K; [lia|]. cbn. now rewrite skipn_nil.
      + rewrite (perm_nil_ _ (S [])). destruct (v <=? 0); cbn; unfold zskip; now rewrite skipn_nil.
    - cbn [andb]. rewrite (perm_nil_ _ (S [])). destruct (v <=? 0); cbn; unfold zskip; now rewrite skipn_nil.
  Qed.

  Lemma opened_whole {A} (contents : list A) calls positions :
    Forall documented calls -> no_negative_seek contents 0 calls ->
    exists s, sf_init (open_plain 0 (len contents)) = Ok s /\
      map to_answer (sf_run (fun f => match f with O => contents | _ => [] end) (s, positions) (map to_op calls)) = mem_run contents 0 calls.
  Proof.
    intros Hd Hn. set (files := fun f : nat => match f with O => contents | _ => [] end).
    assert (Ej : joined files (open_plain 0 (len contents)) = contents).
    { unfold joined, open_plain. cbn [map concat files]. rewrite app_nil_r. unfold bytes_at, len.
      cbn [Z.to_nat skipn]. rewrite Nat2Z.id. apply firstn_all. }
    assert (Hi : Forall (inside files) (open_plain 0 (len contents))) by (constructor; [unfold inside, files, len; lia|constructor]).
    rewrite <- Ej in Hn. destruct (C02_stenciled_history_partial A files _ calls positions Hi Hd Hn) as (s & E1 & E2).
    rewrite Ej in E2. eauto.
  Qed.
