From Verif Require Import PyBase MemFile_Spec Stencil_Model Stencil_Spec Stencil_Proofs Blob_Model.
Local Open Scope Z_scope.

Section Proofs.
  Context {A : Type}.

  Lemma py_slice_split (l : list A) k : py_slice l 0 k ++ py_slice l k (len l) = l.
  Proof.
    unfold py_slice.
    assert (Hi : 0 <= py_index l k <= len l) by (unfold py_index; pose proof (len_nonneg l); destruct (Z.ltb_spec k 0); lia).
    assert (H0 : py_index l 0 = 0) by (unfold py_index; pose proof (len_nonneg l); destruct (Z.ltb_spec 0 0); lia).
    assert (Hl : py_index l (len l) = len l) by (unfold py_index; pose proof (len_nonneg l); destruct (Z.ltb_spec (len l) 0); lia).
    rewrite H0, Hl. set (i := py_index l k) in *.
    replace (Z.max 0 (i - 0)) with i by lia. replace (Z.max 0 (len l - i)) with (len l - i) by lia.
    replace (zslice l i (len l - i)) with (zslice l (0 + i) (len l - i)) by (f_equal; lia).
    rewrite <- zslice_add by lia. unfold zslice. cbn. apply ztake_all. lia.
  Qed.

  Definition content (w : writer A) : list A := concat (w_table w) ++ w_blob w.

  Lemma flush_content w : content (w_flush w) = content w.
  Proof.
    unfold content, w_flush. cbn [w_table w_blob]. rewrite app_nil_r.
    destruct (Z.ltb_spec 0 (len (w_blob w))) as [H|H].
    - rewrite concat_app. cbn. now rewrite app_nil_r.
    - destruct (w_blob w); [now rewrite app_nil_r|]. unfold len in H. cbn [length] in H. lia.
  Qed.

  Lemma write_spec w b : exists w', w_write w b = (Ok (len b), w') /\ content w' = content w ++ b /\
    w_size w' = w_size w + len b /\ w_blob_size w' = w_blob_size w.
  Proof.
    unfold w_write. destruct (Z.ltb_spec (len b) (w_blob_size w - len (w_blob w))) as [H|H].
    - rewrite Z.eqb_refl. eexists; split; [reflexivity|]. unfold content. cbn. now rewrite app_assoc.
    - set (free := w_blob_size w - len (w_blob w)) in *. cbv zeta.
      assert (E : len (py_slice b 0 free) + len (py_slice b free (len b)) = len b)
        by (rewrite <- len_app; f_equal; apply py_slice_split).
      rewrite E, Z.eqb_refl. eexists; split; [reflexivity|]. split; [|split; reflexivity].
      unfold content. cbn [w_table w_blob]. rewrite app_assoc.
      match goal with |- (concat (w_table ?x) ++ w_blob ?x) ++ _ = _ => change (concat (w_table x) ++ w_blob x) with (content x) end.
      rewrite flush_content. unfold content. cbn [w_table w_blob]. rewrite <- !app_assoc. f_equal. f_equal. apply py_slice_split.
  Qed.

  Lemma writes_spec bs : forall w, exists w', w_writes w bs = (map (fun b => Ok (len b)) bs, w') /\
    content w' = content w ++ concat bs /\ w_size w' = w_size w + len (concat bs).
  Proof.
    induction bs as [|b r IH]; intros w; cbn [w_writes map concat].
    - exists w. rewrite app_nil_r. repeat split. rewrite len_nil. lia.
    - destruct (write_spec w b) as (w1 & -> & E1 & E2 & _). destruct (IH w1) as (w2 & -> & E3 & E4).
      exists w2. split; [reflexivity|]. rewrite E3, E1, <- app_assoc. split; [reflexivity|]. rewrite E4, E2, len_app. lia.
  Qed.

  (** Size of the blobs when no single write is larger than the blob size. *)
  Definition sized (w : writer A) : Prop :=
    Forall (fun b => 0 < len b <= w_blob_size w) (w_table w) /\ 0 <= len (w_blob w) < w_blob_size w.

  Lemma write_sized w b : sized w -> len b <= w_blob_size w -> sized (snd (w_write w b)).
  Proof.
    intros [Ht Hb] Hlen. unfold w_write. destruct (Z.ltb_spec (len b) (w_blob_size w - len (w_blob w))) as [H|H].
    - rewrite Z.eqb_refl. cbn [snd]. split; cbn [w_table w_blob w_blob_size]; [exact Ht|].
      rewrite len_app. pose proof (len_nonneg b). lia.
    - set (free := w_blob_size w - len (w_blob w)) in *. cbv zeta.
      assert (E : len (py_slice b 0 free) + len (py_slice b free (len b)) = len b)
        by (rewrite <- len_app; f_equal; apply py_slice_split).
      assert (E1 : len (py_slice b 0 free) = free).
      { rewrite py_slice_zslice by lia. rewrite len_zslice; lia. }
      rewrite E, Z.eqb_refl. cbn [snd]. split; cbn [w_table w_blob w_blob_size w_flush].
      + destruct (Z.ltb_spec 0 (len (w_blob w ++ py_slice b 0 free))); [|exact Ht].
        apply Forall_app. split; [exact Ht|]. repeat constructor; [assumption|]. rewrite len_app, E1. lia.
      + cbn [app]. pose proof (len_nonneg (py_slice b free (len b))). lia.
  Qed.

  Lemma writes_sized bs : forall w, sized w -> Forall (fun b => len b <= w_blob_size w) bs ->
    sized (snd (w_writes w bs)) /\ w_blob_size (snd (w_writes w bs)) = w_blob_size w.
  Proof.
    induction bs as [|b r IH]; intros w Hw Hbs; cbn [w_writes]; [cbn; auto|].
    inversion Hbs; subst. pose proof (write_sized w b Hw ltac:(assumption)) as H3.
    destruct (write_spec w b) as (w1 & Ew & _ & _ & Es). rewrite Ew in *. cbn [snd] in H3.
    assert (H5 : Forall (fun b => len b <= w_blob_size w1) r) by (eapply Forall_impl; [|eassumption]; cbn; intros; lia).
    destruct (IH w1 H3 H5) as [H6 H7]. destruct (w_writes w1 r) as [xs w'']. cbn [snd] in *. split; [exact H6|congruence].
  Qed.

  Lemma concat_cuts (table : list (list A)) : joined (fun i => nth i table []) (blob_cuts table) = concat table.
  Proof.
    unfold joined, blob_cuts. rewrite map_map.
    transitivity (concat (map (fun i => nth i table []) (seq 0 (length table)))).
    - f_equal. apply map_ext_in. intros i _. cbn. unfold bytes_at. cbn. unfold len. rewrite Nat2Z.id. apply firstn_all.
    - f_equal. clear. induction table as [|b r IH]; [reflexivity|]. cbn [length seq map nth]. f_equal.
      rewrite <- seq_shift, map_map. exact IH.
  Qed.
  Lemma cuts_inside (table : list (list A)) : Forall (inside (fun i => nth i table [])) (blob_cuts table).
  Proof.
    apply Forall_forall. intros c Hc. unfold blob_cuts in Hc. apply in_map_iff in Hc as (i & <- & _).
    unfold inside. pose proof (len_nonneg (nth i table [])). unfold len in *. lia.
  Qed.

  Lemma export_spec blob_size (bs : list (list A)) :
    exists w, export blob_size bs = (map (fun b => Ok (len b)) bs, w) /\ concat (w_table w) = concat bs /\
      w_size w = len (concat bs) /\
      (0 < blob_size -> Forall (fun b => len b <= blob_size) bs -> Forall (fun b => 0 < len b <= blob_size) (w_table w)).
  Proof.
    unfold export. destruct (writes_spec bs (w_init blob_size)) as (w & E & Ec & Es).
    pose proof (writes_sized bs (w_init blob_size)) as Hs. rewrite E in *. cbn [snd] in Hs.
    exists (w_flush w). split; [reflexivity|].
    assert (E0 : content (w_flush w) = concat bs) by (rewrite flush_content, Ec; reflexivity).
    unfold content in E0. cbn [w_flush w_blob] in E0. rewrite app_nil_r in E0. split; [exact E0|]. split; [exact Es|].
    intros Hpos Hbs. destruct Hs as [[H1 H2] H3]; [split; [constructor|cbn; unfold len; cbn; lia]|exact Hbs|].
    cbn [w_blob_size w_init] in H3. rewrite H3 in *. cbn [w_flush w_table].
    destruct (Z.ltb_spec 0 (len (w_blob w))); [|exact H1]. apply Forall_app. split; [exact H1|]. repeat constructor; lia.
  Qed.

  Lemma blobs_read_back blob_size (bs : list (list A)) (positions : nat -> Z) (calls : list call) :
    Forall documented calls -> no_negative_seek (concat bs) 0 calls ->
    let table := w_table (snd (export blob_size bs)) in
    exists s, sf_init (blob_cuts table) = Ok s /\
      map to_answer (sf_run (fun i => nth i table []) (s, positions) (map to_op calls)) = mem_run (concat bs) 0 calls.
  Proof.
    intros Hd Hn. destruct (export_spec blob_size bs) as (w & E & Ec & _). rewrite E. cbn [snd]. cbv zeta.
    rewrite <- Ec in *. rewrite <- concat_cuts in *. now apply stencil_history; auto using cuts_inside.
  Qed.

  Lemma read_blob_part_ok (blob : list A) o n : 0 <= o -> 0 <= n -> read_blob_part blob o n = bytes_at blob o n.
  Proof. intros. unfold read_blob_part, sql_substr. replace (o + 1 - 1) with o by lia. reflexivity. Qed.
End Proofs.
