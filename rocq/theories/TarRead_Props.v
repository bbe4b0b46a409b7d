(** Property C68: from the bytes of a TAR archive to the bytes of a read, through the index. *)
From Coq Require Import Ascii String.
From Verif Require Import PyBase PyDict PyStr Path_Model Path_Spec Path_Proofs FileInfo Index_Model Index_Spec MemFile_Spec
  Stencil_Model Stencil_Spec Sparse_Model Tar_Model Tar_Spec Tar_Proofs Tar_Props TarRead_Model TarRead_Spec TarRead_Proofs.
Local Open Scope Z_scope.

(** C68: the path of a member gives the last member of the archive at that path, and the opened file behaves, over any history of
    calls, like an in-memory file with the first [m_size] bytes of the member's data blocks. *)
Theorem C68_newest_member_is_read_partial :
  forall (A : Type) (render : block -> list A) (transform : str -> str) (strip : bool) (remount : option (str -> str)) (archive : list block) l,
  (forall b, length (render b) = 512%nat) -> tarball archive l ->
  forall now uid gid sh path pos m body, any_order sh -> starts_with $"../" path = false -> denotes path <> [] ->
  last_at transform l (denotes path) (pos, m, body) -> none_below transform l (denotes path) ->
  m_type m <> "D"%char -> m_sparse m = false -> fits m body ->
  exists i cuts,
    lookup now uid gid sh (build (index_part transform strip remount false archive 1 0 archive [] 0)) path 0 = Some i /\
    fi_size i = m_size m /\ fi_mtime i = m_mtime m /\ fi_linkname i = m_link m /\ fi_uid i = m_uid m /\ fi_gid i = m_gid m /\
    open_member i = Some cuts /\
    forall positions calls, Forall documented calls -> no_negative_seek (content_of render m body) 0 calls ->
    exists s, sf_init cuts = Ok s /\
      map to_answer (sf_run (fun f => match f with O => bytes_of render archive | _ => [] end) (s, positions) (map to_op calls)) =
      mem_run (content_of render m body) 0 calls.
Proof.
  intros A render transform strip remount archive l Hrd Ht now uid gid sh path pos m body Hsh Hp Hr Hl Hb Hd Hs Hf.
  pose proof (file_row_fields transform [] 0 0 pos m) as (F1 & F2 & F3 & F4 & F5 & F6 & F7 & F8 & F9 & F10 & F11).
  set (r := file_row transform [] 0 0 pos m) in *.
  exists (row_to_file_info r), (open_plain (r_offset r) (m_size m)).
  split; [now apply (flat_lookup transform strip remount archive l Ht now uid gid sh path pos m body); auto|].
  cbn [row_to_file_info fi_size fi_mtime fi_linkname fi_uid fi_gid]. repeat (split; [assumption|]).
  split; [unfold open_member; cbn [row_to_file_info fi_userdata u_issparse u_offset fi_size]; now rewrite F11, Hs, F5|].
  intros positions calls Hc Hn. apply opened_history; try assumption. rewrite F4.
  apply (lies_body archive archive 0 l); [exists [], []; rewrite app_nil_r; split; reflexivity|exact Ht|].
  destruct Hl as (before & after & -> & _). apply in_or_app. right. now left.
Qed.
Print Assumptions C68_newest_member_is_read_partial.

(** The same for members of archives in archives, at any depth: the index holds a row for the member, with its path, whose cut-out
    behaves like an in-memory file with the member's content. *)
Theorem C68_nested_member_is_read :
  forall (A : Type) (render : block -> list A) (transform : str -> str) (strip : bool) (remount : option (str -> str)) (archive : list block) levels,
  (forall b, length (render b) = 512%nat) ->
  forall prefix header m body,
  holds (mounted_at transform strip remount) levels [] 0 archive prefix header m body -> m_sparse m = false -> fits m body ->
  exists r cuts, In r (build (index_part transform strip remount false archive levels 0 archive [] 0)) /\
    full_path r = written (location_of transform prefix m) /\ r_size r = m_size m /\ open_member (row_to_file_info r) = Some cuts /\
    forall positions calls, Forall documented calls -> no_negative_seek (content_of render m body) 0 calls ->
    exists s, sf_init cuts = Ok s /\
      map to_answer (sf_run (fun f => match f with O => bytes_of render archive | _ => [] end) (s, positions) (map to_op calls)) =
      mem_run (content_of render m body) 0 calls.
Proof.
  intros A render transform strip remount archive levels Hrd prefix header m body H Hs Hf.
  destruct (held_row _ _ _ _ _ _ _ _ _ H) as (r & I & (D1 & D2 & D3 & D4 & D5 & D6 & D7 & D8 & D9 & D10) & Ho).
  exists r, (open_plain (r_offset r) (m_size m)). split; [exact I|]. split; [exact D1|]. split; [exact D4|].
  split; [unfold open_member; cbn [row_to_file_info fi_userdata u_issparse u_offset fi_size]; now rewrite D9, Hs, D4|].
  intros positions calls Hc Hn. apply opened_history; try assumption. rewrite Ho.
  apply (held_lies transform strip remount archive levels [] 0 archive prefix); [exact H|]. exists [], []. rewrite app_nil_r. split; reflexivity.
Qed.
Print Assumptions C68_nested_member_is_read.

(** The sample archive of Tar_Props.v: a/x has 600 bytes in two blocks. *)
Example C68_example :
  last_at (fun p => p) [(0%nat, plain $"a/x" "0" 600 1 2, [Other 1; Other 2]); (4%nat, plain $"b.TAR" "0" 2048 0 4, inner_tar); (9%nat, plain $"./c" "5" 0 0 0, [])]
    (denotes $"/a/x") (0%nat, plain $"a/x" "0" 600 1 2, [Other 1; Other 2]) /\
  none_below (fun p => p) [(0%nat, plain $"a/x" "0" 600 1 2, [Other 1; Other 2]); (4%nat, plain $"b.TAR" "0" 2048 0 4, inner_tar); (9%nat, plain $"./c" "5" 0 0 0, [])]
    (denotes $"/a/x") /\
  fits (plain $"a/x" "0" 600 1 2) [Other 1; Other 2].
Proof.
  split; [|split].
  - exists [], [(4%nat, plain $"b.TAR" "0" 2048 0 4, inner_tar); (9%nat, plain $"./c" "5" 0 0 0, [])]. split; [reflexivity|]. split; [reflexivity|].
    intros pos m body [E|[E|[]]]; injection E as <- <- <-; discriminate.
  - intros pos m body rest [E|[E|[E|[]]]] N; injection E as <- <- <-; destruct rest as [|? [|]]; (congruence || discriminate).
  - split; cbn; lia.
Qed.

(** A member with another one below it is hidden by a generated folder. *)
Theorem C68_member_below_refuted :
  let m := plain $"a" "0" 5 0 1 in let m' := plain $"a/b" "0" 5 0 1 in
  let archive := [Head m; Other 1; Head m'; Other 2; Zero; Zero] in
  let l := [(0%nat, m, [Other 1]); (2%nat, m', [Other 2])] in
  tarball archive l /\ last_at (fun p => p) l (denotes $"/a") (0%nat, m, [Other 1]) /\
  option_map (fun i => is_dir_mode (fi_mode i))
    (lookup 0 0 0 (fun l => l) (build (index_part (fun p => p) false None false archive 1 0 archive [] 0)) $"/a" 0) = Some true.
Proof.
  cbv zeta. split; [|split; [|reflexivity]].
  - apply (tar_member (plain $"a" "0" 5 0 1) [] [Other 1] [Head (plain $"a/b" "0" 5 0 1); Other 2; Zero; Zero] [(0%nat, plain $"a/b" "0" 5 0 1, [Other 2])]); try reflexivity.
    apply (tar_member (plain $"a/b" "0" 5 0 1) [] [Other 2] [Zero; Zero] []); try reflexivity. apply tar_end. right. now exists [Zero].
  - exists [], [(2%nat, plain $"a/b" "0" 5 0 1, [Other 2])]. split; [reflexivity|]. split; [reflexivity|].
    intros pos m body [E|[]]. injection E as <- <- <-. discriminate.
Qed.
Print Assumptions C68_member_below_refuted.
