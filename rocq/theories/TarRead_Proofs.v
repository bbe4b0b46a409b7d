(** Lemmas about reading members of TAR archives. *)
From Coq Require Import Ascii String Permutation Sorting.Sorted.
From Verif Require Import PyBase PyDict PyStr Path_Model Path_Spec Path_Proofs FileInfo Index_Model Index_Spec Index_Proofs Build_Proofs
  SeqIndex_Proofs MemFile_Spec Stencil_Model Stencil_Spec Stencil_Proofs Stencil_Props Sparse_Model Tar_Model Tar_Spec Tar_Proofs TarRead_Model TarRead_Spec.
Local Open Scope Z_scope.

Section Bytes.
  Context {A : Type}.
  Variable render : block -> list A.
  Hypothesis H_render : forall b, length (render b) = 512%nat.

  Lemma bytes_app a b : bytes_of render (a ++ b) = bytes_of render a ++ bytes_of render b.
  Proof. unfold bytes_of. now rewrite map_app, concat_app. Qed.
  Lemma bytes_length a : Z.of_nat (length (bytes_of render a)) = 512 * Z.of_nat (length a).
  Proof.
    induction a as [|x a IH]; [reflexivity|]. change (bytes_of render (x :: a)) with (render x ++ bytes_of render a).
    rewrite app_length, Nat2Z.inj_add, IH, H_render. cbn [length]. lia.
  Qed.

  Lemma lies_content archive body start m : lies_at archive body start -> fits m body ->
    bytes_at (bytes_of render archive) start (m_size m) = content_of render m body /\
    inside (fun f => match f with O => bytes_of render archive | _ => [] end) (0%nat, start, m_size m).
  Proof.
    intros (pre & post & -> & ->) [S1 S2]. unfold bytes_at, content_of, inside. rewrite !bytes_app, !app_length, !Nat2Z.inj_add, !bytes_length.
    replace (Z.to_nat (512 * Z.of_nat (length pre))) with (length (bytes_of render pre)) by (rewrite <- (bytes_length pre); lia).
    rewrite skipn_app, skipn_all, Nat.sub_diag. cbn [app skipn]. split; [|lia].
    rewrite firstn_app. replace (Z.to_nat (m_size m) - length (bytes_of render body))%nat with 0%nat; [apply app_nil_r|].
    pose proof (bytes_length body). lia.
  Qed.
End Bytes.

Section Flat.
  Variable transform : str -> str.
  Variable strip : bool.
  Variable remount : option (str -> str).
  Variable archive : list block.
  Variable l : list (nat * member * list block).
  Hypothesis Ht : tarball archive l.
  Let is := index_part transform strip remount false archive 1 0 archive [] 0.

  Lemma flat_inserted : inserted_rows is = flat_map (fun '(pos, m, _) => file_rows transform [] 0 0 pos m) l.
  Proof.
    unfold is. cbn [index_part]. rewrite (members_tarball archive l Ht). unfold inserted_rows. cbn [flat_map andb negb Nat.eqb].
    rewrite app_nil_r. unfold heads. clear. induction l as [|[[pos m] body] l' IH]; [reflexivity|]. cbn [map flat_map]. now rewrite IH.
  Qed.

  Lemma positions_sorted bs k : tarball bs k -> StronglySorted (fun a b => (fst (fst a) < fst (fst b))%nat) k.
  Proof.
    induction 1 as [|m ext body rest l' Ee Eb Ht' IH]; [constructor|]. constructor.
    - clear - IH. induction IH as [|x k S IH F]; [constructor|]. cbn [map]. constructor; [assumption|].
      rewrite Forall_forall in *. intros y Hy. apply in_map_iff in Hy as ([[p m'] b] & <- & Hy). specialize (F _ Hy). destruct x as [[p' m''] b']. cbn in *. lia.
    - apply Forall_forall. intros y Hy. apply in_map_iff in Hy as ([[p m'] b] & <- & Hy). cbn. lia.
  Qed.

  Lemma rows_of pos m r : In r (file_rows transform [] 0 0 pos m) ->
    full_path r = written (location_of transform [] m) /\ backend_row r /\
    512 * Z.of_nat pos <= r_offsetheader r < 512 * Z.of_nat pos + 2.
  Proof.
    pose proof (file_row_fields transform [] 0 0 pos m) as (F1 & F2 & F3 & _). pose proof (file_row_backend transform [] 0 0 pos m) as B.
    assert (L : full_path (file_row transform [] 0 0 pos m) = written (location_of transform [] m)) by exact F1.
    unfold file_rows. destruct (char_eqb (m_type m) "D").
    - intros [<-|[<-|[]]]; [split; [exact L|]; split; [exact B|lia]|]. split; [exact L|]. split; [exact B|]. cbn [r_offsetheader]. lia.
    - intros [<-|[]]. split; [exact L|]. split; [exact B|lia].
  Qed.

  Lemma sorted_app {X} (R : X -> X -> Prop) a b : StronglySorted R a -> StronglySorted R b -> (forall x y, In x a -> In y b -> R x y) -> StronglySorted R (a ++ b).
  Proof.
    induction 1 as [|x a S IH F]; intros Sb H; [exact Sb|]. cbn [app]. constructor.
    - apply IH; [assumption|]. intros u v Hu Hv. apply H; [now right|assumption].
    - apply Forall_app. split; [assumption|]. apply Forall_forall. intros y Hy. apply H; [now left|assumption].
  Qed.

  Lemma flat_sorted : StronglySorted (fun a b => r_offsetheader a < r_offsetheader b) (inserted_rows is).
  Proof.
    rewrite flat_inserted. pose proof (positions_sorted archive l Ht) as S. clear Ht is. induction S as [|[[pos m] body] k S IH F]; [constructor|].
    cbn [flat_map]. apply sorted_app; [|exact IH|].
    - pose proof (file_row_fields transform [] 0 0 pos m) as (_ & _ & F3 & _). unfold file_rows. destruct (char_eqb (m_type m) "D").
      + constructor; [repeat constructor|]. constructor; [|constructor]. cbn [r_offsetheader]. lia.
      + repeat constructor.
    - intros x y Hx Hy. apply in_flat_map in Hy as ([[pos' m'] body'] & I & Hy). rewrite Forall_forall in F. specialize (F _ I). cbn in F.
      apply rows_of in Hx as (_ & _ & Hx). apply rows_of in Hy as (_ & _ & Hy). lia.
  Qed.

  Lemma flat_backend r : In r (inserted_rows is) -> backend_row r.
  Proof. rewrite flat_inserted. intros I. apply in_flat_map in I as ([[pos m] body] & _ & I). now apply rows_of in I. Qed.

  Lemma flat_lookup now uid gid sh p pos m body : any_order sh -> starts_with $"../" p = false -> denotes p <> [] ->
    last_at transform l (denotes p) (pos, m, body) -> m_type m <> "D"%char ->
    (is_dir_mode (full_mode m) = true \/ none_below transform l (denotes p)) ->
    lookup now uid gid sh (build is) p 0 = Some (row_to_file_info (file_row transform [] 0 0 pos m)).
  Proof.
    intros Hsh Hp Hr (before & after & E & L & Ha) Hd Hb. cbn [fst snd] in L.
    assert (Er : file_rows transform [] 0 0 pos m = [file_row transform [] 0 0 pos m]).
    { unfold file_rows. destruct (char_eqb_spec (m_type m) "D"); [contradiction|reflexivity]. }
    destruct (rows_of pos m (file_row transform [] 0 0 pos m)) as (F & _); [rewrite Er; now left|].
    apply (seq_lookup is flat_backend flat_sorted now uid gid sh p
             (flat_map (fun '(pos, m, _) => file_rows transform [] 0 0 pos m) before) _ (flat_map (fun '(pos, m, _) => file_rows transform [] 0 0 pos m) after)); auto.
    - rewrite flat_inserted, E, flat_map_app. cbn [flat_map]. rewrite Er. reflexivity.
    - now rewrite F, L.
    - intros r' I. apply in_flat_map in I as ([[pos' m'] body'] & I & Hx). apply rows_of in Hx as (F' & _). rewrite F, F'. intros W.
      apply written_inj in W; [|apply denotes_proper|apply denotes_proper]. apply (Ha pos' m' body' I). now rewrite W.
    - destruct Hb as [Hb|Hb]; [left; pose proof (file_row_fields transform [] 0 0 pos m) as (_ & _ & _ & _ & _ & _ & -> & _); exact Hb|right].
      intros r' I rest Hrest Pr. rewrite flat_inserted in I. apply in_flat_map in I as ([[pos' m'] body'] & I & Hx). apply rows_of in Hx as (F' & _).
      rewrite F'. intros W. apply written_inj in W; [|apply denotes_proper|apply Forall_app; split; [apply denotes_proper|assumption]].
      now apply (Hb pos' m' body' rest I Hrest).
  Qed.
End Flat.

Lemma held_lies transform strip remount archive levels prefix start bs prefix' header m body :
  holds (mounted_at transform strip remount) levels prefix start bs prefix' header m body -> lies_at archive bs start ->
  lies_at archive body (header + 512 * Z.of_nat (1 + m_extra m)).
Proof.
  induction 1 as [levels prefix start bs l pos m body Ht I|levels prefix start bs l pos m body at_ prefix' header m' body' Ht I Hn Hsz Hm Hh IH]; intros Hl.
  - replace (start + 512 * Z.of_nat pos + 512 * Z.of_nat (1 + m_extra m)) with (start + 512 * Z.of_nat (pos + 1 + m_extra m)) by lia.
    now apply (lies_body archive bs start l).
  - apply IH. now apply (lies_body archive bs start l).
Qed.

Lemma held_row transform strip remount archive levels prefix header m body :
  holds (mounted_at transform strip remount) levels [] 0 archive prefix header m body ->
  exists r, In r (build (index_part transform strip remount false archive levels 0 archive [] 0)) /\
    describes transform archive prefix header m body r /\ r_offset r = header + 512 * Z.of_nat (1 + m_extra m).
Proof.
  intros H. assert (Hl : lies_at archive archive 0) by (exists [], []; rewrite app_nil_r; split; reflexivity).
  destruct (held_inserted _ _ _ archive _ _ _ _ _ _ _ _ H 0 Hl) as (r & Hr & Hd).
  destruct (held_at _ _ _ archive _ _ _ _ _ _ _ _ H Hl) as (h & Eh & Hh).
  set (is := index_part _ _ _ _ _ _ _ _ _ _) in *.
  assert (Hp : forall x, In x (inserted_rows is) -> placed archive x).
  { intros x. apply inserted_placed. now apply lies_part. }
  assert (Ho : forall x, placed archive x -> r_offsetheader x = header -> r_offset x = header + 512 * Z.of_nat (1 + m_extra m)).
  { intros x (h' & m' & Eh' & P) E. destruct P as [P|P]; [lia|]. assert (h' = h) by lia. subst h'. rewrite Hh in Eh'. injection Eh' as <-.
    destruct P as (_ & -> & _). lia. }
  destruct (replace_all_covers _ r Hr) as (r' & Hr' & K). exists r'. split; [now apply build_keeps|].
  assert (Hi : In r' (inserted_rows is)).
  { apply replace_all_In in Hr' as (p & q & -> & _). apply in_app_iff. right. now left. }
  assert (D : describes transform archive prefix header m body r').
  { apply (describes_same_key transform archive prefix header h m body r); try assumption; [|now apply Hp].
    rewrite (Ho r (Hp r Hr)) by apply Hd. lia. }
  split; [exact D|]. apply Ho; [now apply Hp|apply D].
Qed.

Lemma opened_history {A} (render : block -> list A) archive m body offset calls positions :
  (forall b, length (render b) = 512%nat) -> lies_at archive body offset -> fits m body ->
  Forall documented calls -> no_negative_seek (content_of render m body) 0 calls ->
  let files f := match f with O => bytes_of render archive | _ => [] end in
  exists s, sf_init (open_plain offset (m_size m)) = Ok s /\
    map to_answer (sf_run files (s, positions) (map to_op calls)) = mem_run (content_of render m body) 0 calls.
Proof.
  intros Hr Hl Hf Hd Hn files. destruct (lies_content render Hr archive body offset m Hl Hf) as [E Hi].
  assert (Ej : joined files (open_plain offset (m_size m)) = content_of render m body).
  { unfold joined, open_plain. cbn [map concat files]. rewrite app_nil_r. exact E. }
  rewrite <- Ej in Hn |- *. apply C02_stenciled_history_partial; try assumption. constructor; [exact Hi|constructor].
Qed.
