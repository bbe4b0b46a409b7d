(** Property C08: seek-point data stored as blobs in the index. *)
From Verif Require Import PyBase MemFile_Spec Stencil_Model Stencil_Spec Blob_Model Blob_Proofs.
Local Open Scope Z_scope.

(** C08, contents: for every sequence of writes and every blob size, all writes succeed, the stored rows in order hold
    exactly the written bytes, and the writer's position is the number of written bytes. *)
Theorem C08_blobs_hold_written :
  forall (A : Type) (blob_size : Z) (writes : list (list A)),
    fst (export blob_size writes) = map (fun b => Ok (len b)) writes /\
    concat (w_table (snd (export blob_size writes))) = concat writes /\
    w_size (snd (export blob_size writes)) = len (concat writes).
Proof.
  intros A bs ws. destruct (export_spec bs ws) as (w & -> & E1 & E2 & _). auto.
Qed.
Print Assumptions C08_blobs_hold_written.

(** C08, reading back: every history of seek/read/tell on the file joined from the stored rows is answered like an
    in-memory file with the written bytes. *)
Theorem C08_blobs_read_back :
  forall (A : Type) (blob_size : Z) (writes : list (list A)) (positions : nat -> Z) (calls : list call),
    Forall documented calls -> no_negative_seek (concat writes) 0 calls ->
    let table := w_table (snd (export blob_size writes)) in
    exists s, sf_init (blob_cuts table) = Ok s /\
      map to_answer (sf_run (fun i => nth i table []) (s, positions) (map to_op calls)) = mem_run (concat writes) 0 calls.
Proof. exact @blobs_read_back. Qed.
Print Assumptions C08_blobs_read_back.

(** C08: each underlying blob file is a callback file whose callback returns the requested range of the blob (the
    hypothesis of C05_callback_file_partial). *)
Theorem C08_blob_part :
  forall (A : Type) (blob : list A) (o n : Z), 0 <= o -> 0 <= n -> read_blob_part blob o n = bytes_at blob o n.
Proof. exact @read_blob_part_ok. Qed.
Print Assumptions C08_blob_part.

(** C08, sizes, provable part: if no single write is larger than the blob size, every stored blob is non-empty and not
    larger than the blob size.  Missing for the full statement: larger writes, for which it is false. *)
Theorem C08_blob_size_partial :
  forall (A : Type) (blob_size : Z) (writes : list (list A)),
    0 < blob_size -> Forall (fun b => len b <= blob_size) writes ->
    Forall (fun b => 0 < len b <= blob_size) (w_table (snd (export blob_size writes))).
Proof.
  intros A bs ws H1 H2. destruct (export_spec bs ws) as (w & -> & _ & _ & E). auto.
Qed.
Print Assumptions C08_blob_size_partial.

Example C08_example :
  let writes := [[1; 2]; []; [3; 4; 5]; [6]; [7; 8; 9; 10]]%nat in
  Forall (fun b => len b <= 4) writes /\ w_table (snd (export 4 writes)) = [[1; 2; 3; 4]; [5; 6; 7; 8]; [9; 10]]%nat.
Proof. split; [repeat constructor; discriminate|reflexivity]. Qed.

(** C08 in full is false: a write larger than the blob size is only split once, for every blob size. *)
Theorem C08_blob_size_refuted :
  forall blob_size : Z, 0 < blob_size ->
    exists (writes : list (list nat)), Exists (fun b => blob_size < len b) (w_table (snd (export blob_size writes))).
Proof.
  intros bs H. exists [repeat 0%nat (Z.to_nat (2 * bs + 1))].
  unfold export. cbn [w_writes]. unfold w_write. cbn [w_init w_blob w_blob_size w_table w_size].
  rewrite len_nil, Z.sub_0_r. set (b := repeat 0%nat (Z.to_nat (2 * bs + 1))).
  assert (Hl : len b = 2 * bs + 1) by (unfold len, b; rewrite repeat_length; lia).
  destruct (Z.ltb_spec (len b) bs); [lia|].
  rewrite !py_slice_zslice by lia. rewrite !len_zslice by lia.
  replace (Z.min _ _ + Z.min _ _ =? len b) with true by (symmetry; apply Z.eqb_eq; lia).
  unfold w_flush. cbn [w_blob w_table w_blob_size w_size app]. rewrite !len_zslice by lia.
  destruct (Z.ltb_spec 0 (Z.min (len b - bs) (Z.max 0 (len b - bs)))); [|lia].
  cbn [snd w_table]. apply Exists_exists. exists (zslice b bs (len b - bs)). split.
  - apply in_or_app. right. now left.
  - rewrite len_zslice by lia. lia.
Qed.
Print Assumptions C08_blob_size_refuted.
