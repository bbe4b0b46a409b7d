(** Members of TAR archives: C28 and C29. *)
From Verif Require Import PyBase MemFile_Spec Stencil_Model Stencil_Props Sparse_Model Sparse_Spec Sparse_Proofs.
Local Open Scope Z_scope.

Lemma init_filter cuts : Forall (fun '(f, o, n) => 0 <= o /\ 0 <= n) cuts -> sf_init cuts = sf_init (filter (fun '(_, _, s) => 0 <? s) cuts).
Proof.
  intros H. unfold sf_init, stencil in *.
  assert (F : forall (g : nat * Z * Z -> bool) l, forallb g l = true -> forallb g (filter (fun '(_, _, s) => 0 <? s) l) = true).
  { intros g l Hg. apply forallb_forall. intros x Hx. apply filter_In in Hx as [Hx _]. rewrite forallb_forall in Hg. now apply Hg. }
  assert (O : forallb (fun '(_, o, _) => 0 <=? o) cuts = true) by (apply forallb_forall; intros [[f o] n] Hin; rewrite Forall_forall in H; apply Z.leb_le; now apply H in Hin).
  assert (N : forallb (fun '(_, _, s) => 0 <=? s) cuts = true) by (apply forallb_forall; intros [[f o] n] Hin; rewrite Forall_forall in H; apply Z.leb_le; now apply H in Hin).
  pose proof (F _ _ O) as O'. pose proof (F _ _ N) as N'. rewrite O', N', O, N. cbn [negb].
  replace (filter (fun '(_, _, s) => 0 <? s) (filter (fun '(_, _, s) => 0 <? s) cuts)) with (filter (fun '(_, _, s) => 0 <? s) cuts); [reflexivity|].
  clear. induction cuts as [|[[f o] n] r IH]; [reflexivity|]. cbn [filter]. destruct (0 <? n) eqn:E; [|assumption]. cbn [filter]. rewrite E. now f_equal.
Qed.
Lemma joined_filter {A} (files : nat -> list A) cuts : Forall (fun '(f, o, n) => 0 <= o /\ 0 <= n) cuts -> joined files (filter (fun '(_, _, s) => 0 <? s) cuts) = joined files cuts.
Proof.
  intros H. induction cuts as [|[[f o] n] r IH]; [reflexivity|]. inversion H as [|? ? Hon Hr]; subst. cbn beta iota in Hon. destruct Hon as [Ho Hn]. cbn [filter]. unfold joined in *. destruct (Z.ltb_spec 0 n).
  - cbn [map concat]. now rewrite IH.
  - cbn [map concat]. rewrite IH by assumption. unfold bytes_at. replace (Z.to_nat n) with O by lia. reflexivity.
Qed.

(** C28, provable part.  Opening a sparse member with a well-formed map gives a file that reads, at every position and for every size, as the
    member's sparse content.  Missing for the full statement: maps without any hole, and maps with a piece that does not start at a TAR block
    (the next theorems). *)
Theorem C28_sparse_read_partial {A} (zero : A) (archive : list A) (base real : Z) (cs : pieces) (o n : Z) (positions : nat -> Z) :
  ordered 0 cs real -> stored archive base cs -> aligned base cs -> has_hole cs real -> 0 <= o -> -1 <= n ->
  let content := sparse_content zero cs real in
  exists zeros cuts, open_sparse base real (map_of cs) = Ok (zeros, cuts) /\
  let files f := match f with O => archive | _ => repeat zero (Z.to_nat zeros) end in
  exists s s1 s2 positions', sf_init cuts = Ok s /\ sf_seek s o SEEK_SET = (Ok o, s1) /\
    sf_read files s1 positions n = (Ok (if n =? -1 then skipn (Z.to_nat o) content else bytes_at content o n), s2, positions').
Proof.
  intros H1 H2 H3 H4 Ho Hn content. destruct (open_ok zero archive base real cs H1 H2 H3 H4) as (zeros & cuts & E & Hin & Hpos & Hj).
  exists zeros, cuts. split; [assumption|]. cbv zeta.
  destruct (C01_stenciled_read_at A (files zero archive zeros) _ o n positions Hin Ho Hn) as (s & s1 & s2 & p' & E1 & E2 & E3 & _).
  rewrite joined_filter in E3 by assumption. rewrite Hj in E3. exists s, s1, s2, p'. rewrite init_filter by assumption. split; [assumption|]. split; assumption.
Qed.
Print Assumptions C28_sparse_read_partial.

(** The content has the real size. *)
Theorem C28_sparse_size {A} (zero : A) cs real : 0 <= real -> Z.of_nat (length (sparse_content zero cs real)) = real.
Proof. intros H. unfold sparse_content. rewrite map_length, seq_length. lia. Qed.
Print Assumptions C28_sparse_size.

(** Overlapping, unsorted or too long maps are rejected rather than read wrongly. *)
Lemma loop_last lastEnd tarOffset entries st last : Forall (fun '(o, n) => 0 <= o /\ 0 <= n) entries ->
  sparse_loop lastEnd tarOffset entries = Ok (st, last) ->
  exists pos : nat -> Z, (forall i o n, nth_error entries i = Some (o, n) -> (o = 0 /\ n = 0) \/ (pos i <= o /\ o + n <= last /\ lastEnd <= pos i)) /\
    (forall i j o n, (i < j)%nat -> nth_error entries i = Some (o, n) -> ~ (o = 0 /\ n = 0) -> o + n <= pos j) /\ lastEnd <= last.
Proof.
  revert lastEnd tarOffset st last. induction entries as [|[o n] r IH]; intros lastEnd tarOffset st last Hf H; cbn [sparse_loop] in H.
  - injection H as <- <-. exists (fun _ => 0). split; [intros [|i] o n; discriminate|]. split; [intros [|i] j o n _; discriminate|lia].
  - inversion Hf as [|? ? H01 Hf']; subst. cbn beta iota in H01. destruct H01 as [H0 H1]. destruct ((o =? 0) && (n =? 0)) eqn:Ep.
    + apply Bool.andb_true_iff in Ep as [E1 E2]. apply Z.eqb_eq in E1, E2. destruct (IH _ _ _ _ Hf' H) as (pos & P1 & P2 & P3).
      exists (fun i => match i with O => lastEnd | S i => pos i end). split; [|split; [|assumption]].
      * intros [|i] o' n' E; cbn in E; [injection E as <- <-; now left|now apply P1].
      * intros [|i] [|j] o' n' Hij E Hz; cbn in E; try lia; [injection E as <- <-; exfalso; apply Hz; now split|]. apply (P2 i j); [lia|assumption|assumption].
    + destruct (Z.ltb_spec o lastEnd); [discriminate|]. destruct (negb _ && _); [discriminate|]. destruct (sparse_loop (o + n) (tarOffset + n) r) as [[st' last']|] eqn:El; [|discriminate]. cbn [bind] in H. injection H as <- <-.
      destruct (IH _ _ _ _ Hf' El) as (pos & P1 & P2 & P3). exists (fun i => match i with O => lastEnd | S i => Z.max (pos i) (o + n) end). split; [|split; [|lia]].
      * intros [|i] o' n' E; cbn in E; [injection E as <- <-; right; lia|]. destruct (P1 i o' n' E) as [P|P]; [now left|right]. lia.
      * intros [|i] [|j] o' n' Hij E Hz; cbn in E; try lia; [injection E as <- <-; lia|]. specialize (P2 i j o' n' ltac:(lia) E Hz). lia.
Qed.
Theorem C28_bad_maps_rejected base real entries r i j oi ni oj nj :
  Forall (fun '(o, n) => 0 <= o /\ 0 <= n) entries -> open_sparse base real entries = Ok r ->
  nth_error entries i = Some (oi, ni) -> (oi, ni) <> (0, 0) -> oi + ni <= real /\
  ((i < j)%nat -> nth_error entries j = Some (oj, nj) -> (oj, nj) <> (0, 0) -> oi + ni <= oj).
Proof.
  intros Hf H Ei Hi. unfold open_sparse in H. destruct (sparse_loop 0 base entries) as [[st last]|] eqn:E; [|discriminate]. cbn [bind] in H.
  destruct (Z.ltb_spec real last); [discriminate|]. destruct (loop_last _ _ _ _ _ Hf E) as (pos & P1 & P2 & _).
  assert (Hz : ~ (oi = 0 /\ ni = 0)) by (intros [-> ->]; congruence). split.
  - destruct (P1 i oi ni Ei) as [P|P]; [contradiction|lia].
  - intros Hij Ej Hj. pose proof (P2 i j oi ni Hij Ei Hz). destruct (P1 j oj nj Ej) as [[-> ->]|P]; [congruence|lia].
Qed.
Print Assumptions C28_bad_maps_rejected.

Definition ex_pieces : pieces := [(2, [7; 8; 9]); (0, []); (6, [])]%Z.
Example C28_example_hypotheses :
  ordered 0 ex_pieces 6 /\ stored (repeat 0 512 ++ [7; 8; 9; 1; 1]) 512 ex_pieces /\ aligned 512 ex_pieces /\ has_hole ex_pieces 6 /\
  sparse_content 0 ex_pieces 6 = [0; 0; 7; 8; 9; 0] /\ open_sparse 512 6 (map_of ex_pieces) = Ok (2, [(1%nat, 0, 2); (0%nat, 512, 3); (1%nat, 0, 1); (0%nat, 515, 0)]).
Proof.
  split; [cbn; right; split; [lia|]; left; split; [now split|]; right; split; lia|]. split; [split; [lia|reflexivity]|]. split; [|split; [exists 0; split; [lia|reflexivity]|split; reflexivity]].
  cbn [aligned ex_pieces snd]. split; [right; exists 1; reflexivity|]. split; [now left|]. split; [now left|exact I].
Qed.

(** A sparse member whose map has no hole cannot be opened: max() of an empty sequence. *)
Theorem C28_no_hole_refuted :
  exists (archive : list Z) base real cs, ordered 0 cs real /\ stored archive base cs /\ aligned base cs /\ sparse_content 0 cs real = [7; 8] /\
    open_sparse base real (map_of cs) = Err ValueError.
Proof.
  exists [7; 8], 0, 2, [(0, [7; 8])]. split; [cbn; right; split; lia|]. split; [split; [lia|reflexivity]|]. split; [|split; reflexivity].
  cbn [aligned snd]. split; [right; exists 0; reflexivity|exact I].
Qed.
Print Assumptions C28_no_hole_refuted.
(** A piece that follows an odd-sized one cannot be opened either. *)
Theorem C28_unaligned_refuted :
  exists (archive : list Z) base real cs, ordered 0 cs real /\ stored archive base cs /\ has_hole cs real /\ sparse_content 0 cs real = [7; 0; 8] /\
    open_sparse base real (map_of cs) = Err RatarmountError.
Proof.
  exists [7; 8], 0, 3, [(0, [7]); (2, [8])]. split; [cbn; right; split; [lia|]; right; split; lia|]. split; [split; [lia|reflexivity]|]. split; [|split; reflexivity].
  exists 1. split; [lia|reflexivity].
Qed.
Print Assumptions C28_unaligned_refuted.

(** ** C29 *)
(** Provable part: reads within the member return its bytes. *)
Theorem C29_read_within_partial {A} (archive : list A) (offset size o n : Z) :
  0 <= offset -> offset + size <= Z.of_nat (length archive) -> 0 <= o -> 0 <= n -> o + n <= size ->
  read_plain archive offset size n o = Ok (bytes_at (bytes_at archive offset size) o n).
Proof.
  intros H1 H2 H3 H4 H5. unfold read_plain. replace (offset + o <? 0) with false by (symmetry; apply Z.ltb_ge; lia). f_equal. unfold file_read.
  replace (n <? 0) with false by (symmetry; apply Z.ltb_ge; lia). symmetry. change (zslice (zslice archive offset size) o n = zslice archive (offset + o) n). apply zslice_zslice; lia.
Qed.
Print Assumptions C29_read_within_partial.
(** The file object returned by open does stop at the end of the member. *)
Theorem C29_open_stops {A} (archive other : list A) (offset size o n : Z) positions :
  0 <= offset -> 0 <= size -> offset + size <= Z.of_nat (length archive) -> 0 <= o -> 0 <= n ->
  let files f := match f with O => archive | _ => other end in
  exists s s1 s2 positions', sf_init (open_plain offset size) = Ok s /\ sf_seek s o SEEK_SET = (Ok o, s1) /\
    sf_read files s1 positions n = (Ok (bytes_at (bytes_at archive offset size) o n), s2, positions').
Proof.
  intros H1 H1' H2 H3 H4 files. destruct (C01_stenciled_read_at A files (open_plain offset size) o n positions) as (s & s1 & s2 & p' & E1 & E2 & E3 & _); [|assumption|lia|].
  - constructor; [|constructor]. cbn. lia.
  - unfold joined, open_plain in E3. cbn [map concat] in E3. rewrite app_nil_r in E3. replace (n =? -1) with false in E3 by (symmetry; apply Z.eqb_neq; lia). exists s, s1, s2, p'. auto.
Qed.
Print Assumptions C29_open_stops.
(** read(fileInfo, size, offset) returns bytes that follow the member in the archive. *)
Theorem C29_read_refuted :
  exists (archive : list Z) offset size o n, 0 <= offset /\ offset + size <= Z.of_nat (length archive) /\ 0 <= o <= size /\ 0 <= n /\
    bytes_at (bytes_at archive offset size) o n = [2; 3] /\ read_plain archive offset size n o = Ok [2; 3; 4].
Proof. exists [1; 2; 3; 4], 0, 3, 1, 3. split; [lia|]. split; [cbn; lia|]. split; [lia|]. split; [lia|]. split; reflexivity. Qed.
Print Assumptions C29_read_refuted.
(** The same for reading "the rest" (size -1). *)
Theorem C29_read_rest_refuted :
  exists (archive : list Z) offset size, bytes_at archive offset size = [2] /\ read_plain archive offset size (-1) 0 = Ok [2; 3].
Proof. exists [1; 2; 3], 1, 1. split; reflexivity. Qed.
Print Assumptions C29_read_rest_refuted.
