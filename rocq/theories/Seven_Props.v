(** Property C73: a file in a 7z archive is found and its content is read. *)
From Coq Require Import Ascii String Permutation.
From Verif Require Import PyBase PyDict PyStr Path_Model Path_Spec Path_Proofs FileInfo Index_Model Index_Spec Index_Proofs Tar_Model Tar_Proofs Member_Proofs Rar_Proofs
  Seven_Model Seven_Spec.
Local Open Scope Z_scope.

(** ** The file that collects the chunks *)
Section Cached.
  Context {A : Type}.
  Variable maxSize : Z.
  Definition kept (pos : Z) (s : list A) : list A := if pos =? 0 then s else zskip (Z.max 0 (len s - pos)) s.
  Lemma write_step (st : cached) (s : list A) : len (c_file st) <= c_position st -> 0 <= c_position st -> 2 * (c_position st + len s) <= maxSize ->
    cached_write 0 maxSize st s = mkCached (c_file st ++ kept (c_position st) s) (c_position st + len s).
  Proof.
    intros F P M. unfold cached_write, kept. pose proof (len_nonneg s) as S. pose proof (len_nonneg (c_file st)) as S'.
    destruct (Z.ltb_spec (0 - c_position st) (len s)) as [L|L]; cbn [andb].
    - destruct (Z.ltb_spec (len (c_file st)) maxSize) as [T|T]; [|lia]. f_equal. f_equal. unfold py_slice, PyBase.py_index.
      destruct (Z.ltb_spec (0 - c_position st + (maxSize - len (c_file st))) 0) as [X|X]; [lia|].
      rewrite (Z.min_r (0 - c_position st + (maxSize - len (c_file st))) (len s)) by lia. destruct (Z.eqb_spec (c_position st) 0) as [Z|Z].
      + rewrite Z. change (0 - 0 <? 0) with false. cbn iota. change (0 - 0) with 0. rewrite (Z.min_l 0) by lia. apply zslice_full. lia.
      + destruct (Z.ltb_spec (0 - c_position st) 0) as [Y|Y]; [|lia].
        replace (Z.max 0 (0 - c_position st + len s)) with (Z.max 0 (len s - c_position st)) by lia. unfold zslice. apply ztake_all. rewrite len_zskip by lia. lia.
    - assert (c_position st = 0 /\ len s = 0) as (Z & Z') by lia. rewrite Z. destruct s; [|unfold len in Z'; cbn in Z'; lia]. cbn. now rewrite app_nil_r.
  Qed.

  Lemma len_kept pos (s : list A) : 0 <= pos -> len (kept pos s) = if pos =? 0 then len s else Z.min pos (len s).
  Proof. intros P. unfold kept. pose proof (len_nonneg s). destruct (pos =? 0); [reflexivity|]. rewrite len_zskip by lia. lia. Qed.
  Lemma kept_all pos (s : list A) : 0 <= pos -> (kept pos s = s <-> pos = 0 \/ len s <= pos).
  Proof.
    intros P. pose proof (len_nonneg s). split.
    - intros K. pose proof (len_kept pos s P) as L. rewrite K in L. destruct (Z.eqb_spec pos 0); [now left|right]. lia.
    - intros K. unfold kept. destruct (Z.eqb_spec pos 0) as [->|Z]; [reflexivity|]. destruct K as [K|K]; [lia|]. rewrite Z.max_l by lia. apply zskip_0.
  Qed.
  Lemma result_state chunks : 2 * len (concat chunks) <= maxSize ->
    let st := fold_left (cached_write (A := A) 0 maxSize) chunks (mkCached [] 0) in
    c_position st = len (concat chunks) /\ len (c_file st) <= c_position st.
  Proof.
    induction chunks as [|c chunks IH] using rev_ind; intros M; [split; reflexivity || apply Z.le_refl|].
    rewrite concat_app, len_app in M. cbn [concat] in M. rewrite app_nil_r in M. pose proof (len_nonneg c). pose proof (len_nonneg (concat chunks)).
    destruct IH as (I1 & I2); [lia|]. rewrite fold_left_app. cbn [fold_left]. rewrite write_step by lia. cbn [c_position c_file].
    rewrite concat_app, !len_app. cbn [concat]. rewrite app_nil_r, I1. split; [reflexivity|]. rewrite len_kept by lia. rewrite I1 in I2. destruct (Z.eqb_spec (len (concat chunks)) 0); lia.
  Qed.
  Lemma result_snoc chunks c : 2 * len (concat (chunks ++ [c])) <= maxSize ->
    cached_result 0 maxSize (chunks ++ [c]) = cached_result 0 maxSize chunks ++ kept (len (concat chunks)) c.
  Proof.
    intros M. rewrite concat_app, len_app in M. cbn [concat] in M. rewrite app_nil_r in M. pose proof (len_nonneg c). pose proof (len_nonneg (concat chunks)).
    unfold cached_result. rewrite fold_left_app. cbn [fold_left]. destruct (result_state chunks) as (I1 & I2); [lia|].
    rewrite write_step by lia. cbn [c_file]. now rewrite I1.
  Qed.
  Lemma result_len chunks : 2 * len (concat chunks) <= maxSize -> len (cached_result (A := A) 0 maxSize chunks) <= len (concat chunks).
  Proof. intros M. destruct (result_state chunks M) as (I1 & I2). unfold cached_result. lia. Qed.

  Lemma result_exact (chunks : list (list A)) : 2 * len (concat chunks) <= maxSize ->
    (cached_result 0 maxSize chunks = concat chunks <-> no_longer_chunks chunks).
  Proof.
    induction chunks as [|c chunks IH] using rev_ind; intros M.
    - split; [|reflexivity]. intros _ before c after E. now destruct before.
    - assert (M' := M). rewrite concat_app, len_app in M'. cbn [concat] in M'. rewrite app_nil_r in M'. pose proof (len_nonneg c) as C. pose proof (len_nonneg (concat chunks)) as C'.
      assert (Mc : 2 * len (concat chunks) <= maxSize) by lia. specialize (IH Mc). rewrite result_snoc by exact M. rewrite concat_app. cbn [concat]. rewrite app_nil_r.
      pose proof (result_len chunks Mc) as RL. split.
      + intros E. assert (LE := f_equal (@len A) E). rewrite !len_app, len_kept in LE by lia.
        assert (Lr : len (cached_result 0 maxSize chunks) = len (concat chunks)) by (destruct (len (concat chunks) =? 0); lia).
        assert (Q : cached_result 0 maxSize chunks = concat chunks /\ kept (len (concat chunks)) c = c).
        { unfold len in Lr. apply Nat2Z.inj in Lr. revert Lr E. generalize (cached_result 0 maxSize chunks), (concat chunks) at 1 3 4. clear.
          intros a b L E. revert b L E. induction a as [|x a IH]; intros [|y b] L E; try discriminate; [now split|]. injection L as L. injection E as -> E. destruct (IH b L E) as (-> & Q). now split. }
        destruct Q as (Q1 & Q2). apply IH in Q1. apply kept_all in Q2; [|exact C']. intros before d after S.
        destruct (exists_last (l := d :: after)) as (front & z & Z); [discriminate|]. rewrite Z in S. rewrite app_assoc in S. apply app_inj_tail in S as (S & <-).
        destruct front as [|y front].
        * injection Z as -> ->. rewrite app_nil_r in S. subst before. destruct Q2 as [Q2|Q2]; [left; now apply len_zero|right; unfold len in Q2; lia].
        * injection Z as <- ->. apply (Q1 before d front S).
      + intros N. f_equal.
        * apply IH. intros before d after S. apply (N before d (after ++ [c])). now rewrite S, <- app_assoc.
        * apply kept_all; [exact C'|]. destruct (N chunks c [] eq_refl) as [Q|Q]; [left; now rewrite Q|right; unfold len; lia].
  Qed.
End Cached.

(** ** The index *)
Lemma seven_row_owner transform i : r_uid (seven_row transform i) = 0 /\ r_gid (seven_row transform i) = 0.
Proof. unfold seven_row. now destruct (split_last _). Qed.
Lemma seven_row_fields transform i : let r := seven_row transform i in
  full_path r = written (seven_location transform i) /\ ~ In slash (r_name r) /\ r_offsetheader r = 0 /\ r_size r = v_size i /\ r_mtime r = v_ctime i /\
  r_linkname r = v_name i /\ r_mode r = Z.lor 511 (if v_isdir i then S_IFDIR else S_IFREG).
Proof.
  unfold seven_row. rewrite normpath_written. change (denotes (transform (v_name i))) with (seven_location transform i).
  destruct (split_last_written (seven_location transform i) (denotes_proper _)) as (a & b & -> & E & N). cbn. repeat split; assumption.
Qed.

(** The last entry at a location is found with its attributes, and opening it gives its bytes, if the library never writes a chunk that is
    longer than everything before it.  (The size limit is half of the largest integer, i.e. 4 EiB.) *)
Theorem C73_lookup_and_open_partial :
  forall A transform infos now uid gid sh maxSize (extract : str -> list (str * list (list A))) loc i chunks, any_order sh ->
  Forall proper_name loc -> loc <> [] -> last_entry transform infos loc i ->
  v_isdir i = true \/ nothing_below transform infos loc ->
  exists f, lookup now uid gid sh (seven_index transform infos) (written loc) 0 = Some f /\
    fi_size f = v_size i /\ fi_mtime f = v_ctime i /\ fi_uid f = 0 /\ fi_gid f = 0 /\ fi_mode f mod 4096 = 511 /\ is_dir_mode (fi_mode f) = v_isdir i /\ is_reg_mode (fi_mode f) = negb (v_isdir i) /\
    (extracts extract (v_name i) chunks -> no_longer_chunks chunks -> 2 * len (concat chunks) <= maxSize -> seven_open maxSize extract f = Ok (concat chunks)).
Proof.
  intros A transform infos now uid gid sh maxSize extract loc i chunks Hsh P N (before & after & E & L & Af) Hh.
  destruct (seven_row_fields transform i) as (F1 & F2 & F3 & F4 & F5 & F6 & F7). exists (row_to_file_info (seven_row transform i)). split.
  - unfold seven_index. rewrite E. apply (member_lookup (seven_row transform) (seven_location transform)); auto.
    + intros e. apply (seven_row_fields transform e).
    + intros e. apply (seven_row_fields transform e).
    + intros e. apply denotes_proper.
    + intros j J Lj. destruct (seven_row_fields transform j) as (_ & _ & -> & _). rewrite F3. lia.
    + intros j J Lj. exfalso. rewrite Forall_forall in Af. now apply (Af j J).
    + destruct Hh as [D|Hh]; [left; rewrite F7, D; reflexivity|right]. intros j rest J R. rewrite <- E in J. now apply Hh.
  - destruct (seven_row_owner transform i) as (Ou & Og). cbn [row_to_file_info fi_uid fi_gid fi_size fi_mtime fi_mode]. split; [exact F4|]. split; [exact F5|]. split; [exact Ou|]. split; [exact Og|]. rewrite F7.
    split; [now destruct (v_isdir i)|]. split; [now destruct (v_isdir i)|]. split; [now destruct (v_isdir i)|].
    intros (earlier & X) Nl M. unfold seven_open, open_in_memory. cbn [row_to_file_info fi_linkname]. rewrite F6, X, map_app. cbn [map].
    rewrite (dget_dict_of_snoc str_eqb str_eqb_spec), str_eqb_refl. f_equal. now apply result_exact.
Qed.
Print Assumptions C73_lookup_and_open_partial.

(** Exactly those chunks are read correctly. *)
Theorem C73_chunks_exact :
  forall A (extract : str -> list (str * list (list A))) maxSize name chunks f, extracts extract name chunks -> fi_linkname f = name -> 2 * len (concat chunks) <= maxSize ->
  (seven_open maxSize extract f = Ok (concat chunks) <-> no_longer_chunks chunks).
Proof.
  intros A extract maxSize name chunks f (earlier & X) <- M. unfold seven_open, open_in_memory. rewrite X, map_app. cbn [map].
  rewrite (dget_dict_of_snoc str_eqb str_eqb_spec), str_eqb_refl. rewrite <- (result_exact maxSize) by exact M. split; [congruence|now intros ->].
Qed.
Print Assumptions C73_chunks_exact.

(** Bytes are lost when a chunk is longer than what came before it. *)
Theorem C73_chunks_refuted : exists (chunks : list (list nat)) extract, extracts extract $"a" chunks /\ concat chunks = [1; 2; 3; 4]%nat /\
  forall maxSize now uid gid, 8 <= maxSize -> exists f, lookup now uid gid (fun l => l) (seven_index (fun s => s) [mkS $"a" false 4 0]) $"/a" 0 = Some f /\ fi_size f = 4 /\
    seven_open maxSize extract f = Ok [1; 3; 4]%nat.
Proof.
  exists [[1]; [2; 3]; [4]]%nat, (fun name => [(name, [[1]; [2; 3]; [4]]%nat)]). split; [now exists []|]. split; [reflexivity|]. intros maxSize now uid gid M.
  eexists. split; [reflexivity|]. split; [reflexivity|]. unfold seven_open, open_in_memory. cbn [fi_linkname row_to_file_info map]. 
  change (dget str_eqb (dict_of str_eqb [($"a", cached_result 0 maxSize [[1]; [2; 3]; [4]]%nat)]) $"a") with (Some (cached_result 0 maxSize [[1]; [2; 3]; [4]]%nat)).
  cbn iota. f_equal. change [[1]; [2; 3]; [4]]%nat with (([] ++ [[1]]) ++ [[2; 3]] ++ [[4]])%nat. rewrite app_assoc.
  rewrite !result_snoc by (unfold len; cbn; lia). reflexivity.
Qed.
Print Assumptions C73_chunks_refuted.

Example C73_nontrivial : last_entry (fun s => s) [mkS $"d" true 0 1; mkS $"d/a" false 3 2; mkS $"b" false 1 3; mkS $"./d/a" false 4 4] [$"d"; $"a"] (mkS $"./d/a" false 4 4) /\
  no_longer_chunks [[]; [1; 2]; [3]; [4; 5; 6]]%nat /\ ~ no_longer_chunks [[1]; [2; 3]]%nat.
Proof.
  split; [exists [mkS $"d" true 0 1; mkS $"d/a" false 3 2; mkS $"b" false 1 3], []; split; [reflexivity|]; split; [reflexivity|constructor]|]. split.
  - intros [|a [|b [|c [|d before]]]] x after E; try (injection E; intros; subst; cbn; auto; fail).
    + injection E as _ _ _ _ E. destruct before; discriminate.
  - intros N. destruct (N [[1]]%nat [2; 3]%nat [] eq_refl) as [Q|Q]; [discriminate|cbn in Q; lia].
Qed.
