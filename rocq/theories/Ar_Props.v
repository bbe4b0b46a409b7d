(** C38: AR archives are parsed into exactly their members. *)
From Coq Require Import Ascii String.
From Verif Require Import PyBase PyStr PyInt FileInfo Ar_Model Ar_Spec Ar_Proofs.
Local Open Scope Z_scope.

(** Every archive made of members with short names and BSD long names, and of symbol tables, is parsed into exactly its members.
    The full statement would also allow any GNU long names; of those only the first name of a table is found. *)
Theorem C38_round_trip_partial ps : archive_ok ps -> first_names ps ->
  exists files, parse_ar (archive ps) = Ok files /\ Forall2 (describes (archive ps)) (members ps) files.
Proof. intros H F. pose proof (parse_archive [] ps H F ltac:(reflexivity)) as P. rewrite app_nil_r in P. exact P. Qed.
Print Assumptions C38_round_trip_partial.

(** An archive that ends within a header is rejected. *)
Theorem C38_truncated ps junk : archive_ok ps -> first_names ps -> 0 < len junk < 60 -> parse_ar (archive ps ++ junk) = Err RatarmountError.
Proof. intros H F L. pose proof (parse_archive junk ps H F (proj2 L)) as P. destruct junk; [destruct L as [L _]; discriminate L|exact P]. Qed.
Print Assumptions C38_truncated.

(** For every input that is accepted, the meta data of every file is what the header at its position says. *)
Theorem C38_headers data files : parse_ar data = Ok files -> Forall (header_says (str_eqb (zslice data 0 8) thin_magic) data) files.
Proof.
  unfold parse_ar. change ($"!<arch>" ++ [newline]) with magic. change ($"!<thin>" ++ [newline]) with thin_magic.
  destruct (str_eqb_spec (zslice data 0 8) magic) as [->|_]; [|destruct (str_eqb (zslice data 0 8) thin_magic); [|discriminate]];
    (apply loop_headers; [lia|constructor]).
Qed.
Print Assumptions C38_headers.

(** Headers and contents do not overlap, for every input that is accepted, and member data starts inside the file. *)
Theorem C38_regions data files : parse_ar data = Ok files -> zslice data 0 8 = magic ->
  regions 8 files /\ Forall (fun f => a_offset_data f <= len data) files.
Proof.
  unfold parse_ar. intros E M. rewrite M in E. change (str_eqb magic ($"!<arch>" ++ [newline])) with true in E. cbn iota in E.
  apply loop_regions in E; [exact E|lia|cbn; lia|constructor].
Qed.
Print Assumptions C38_regions.

(** Every input is either parsed or rejected with one of two exceptions: the loop ends. *)
Theorem C38_terminates data : (exists files, parse_ar data = Ok files) \/ parse_ar data = Err RatarmountError \/ parse_ar data = Err ValueError.
Proof.
  unfold parse_ar. destruct (str_eqb (zslice data 0 8) ($"!<arch>" ++ [newline])).
  - apply loop_ends; [lia| |lia]. unfold len. lia.
  - destruct (str_eqb (zslice data 0 8) ($"!<thin>" ++ [newline])); [|right; now left]. apply loop_ends; [lia| |lia]. unfold len. lia.
Qed.
Print Assumptions C38_terminates.

(** Anything without the magic bytes is rejected. *)
Theorem C38_magic data : zslice data 0 8 <> magic -> zslice data 0 8 <> thin_magic -> parse_ar data = Err RatarmountError.
Proof.
  intros N1 N2. unfold parse_ar. change ($"!<arch>" ++ [newline]) with magic. change ($"!<thin>" ++ [newline]) with thin_magic.
  destruct (str_eqb_spec (zslice data 0 8) magic); [contradiction|]. destruct (str_eqb_spec (zslice data 0 8) thin_magic); [contradiction|]. reflexivity.
Qed.
Print Assumptions C38_magic.

(** Thin archives: every member is a link to the file that the archive names. *)
Theorem C38_thin ps : thin_ok None ps ->
  exists files, parse_ar (thin_archive ps) = Ok files /\ Forall2 thin_describes (thin_members ps) files.
Proof. apply parse_thin_archive. Qed.
Print Assumptions C38_thin.

(** Members are shown as regular files with their permissions, thin members as symbolic links. *)
Theorem C38_mode f p : 0 <= p < 4096 -> a_symlink f = false -> a_mode f = Z.lor p 32768 ->
  is_reg_mode (row_mode f) = true /\ Z.land (row_mode f) 4095 = p.
Proof.
  intros H S E. unfold row_mode. rewrite S, E.
  assert (Z.lor p 32768 <> 0) as N by (intros X; apply Z.lor_eq_0_iff in X as [_ X]; discriminate).
  rewrite (proj2 (Z.eqb_neq _ _) N). change S_IFREG with 32768. rewrite Z.lor_diag. rewrite <- Z.lor_assoc, Z.lor_diag. split.
  - unfold is_reg_mode. rewrite Z.land_lor_distr_l, low_bits by exact H. reflexivity.
  - now apply low_part.
Qed.
Print Assumptions C38_mode.

Theorem C38_thin_mode f p : 0 <= p < 4096 -> a_symlink f = true -> a_mode f = Z.lor (Z.lor p 32768) 40960 ->
  is_lnk_mode (row_mode f) = true /\ Z.land (row_mode f) 4095 = p.
Proof.
  intros H S E. unfold row_mode. rewrite S, E.
  assert (Z.lor (Z.lor p 32768) 40960 <> 0) as N by (intros X; apply Z.lor_eq_0_iff in X as [_ X]; discriminate).
  rewrite (proj2 (Z.eqb_neq _ _) N). change S_IFREG with 32768. change S_IFLNK with 40960.
  rewrite <- !Z.lor_assoc. change (Z.lor 32768 (Z.lor 40960 (Z.lor 40960 32768))) with 40960. split.
  - unfold is_lnk_mode. rewrite Z.land_lor_distr_l, low_bits by exact H. reflexivity.
  - now apply low_part.
Qed.
Print Assumptions C38_thin_mode.

(** ** Examples *)
Definition ex_meta (size : str) (n : Z) : meta := mkMeta $"1700000000" $"1000" [] $"100644" size 1700000000 1000 0 33188 n.
Ltac digits := unfold number; split; [cbn; lia|right; split; [discriminate|]].
Lemma denotes_fold b ds : 8 <= b <= 10 -> forallb (fun c => is_digit c && (digit_value c <? b)) ds = true ->
  denotes b ds (fold_left (fun acc c => acc * b + digit_value c) ds 0).
Proof.
  intros Hb. induction ds as [|c ds IH] using rev_ind; intros H; [constructor|]. rewrite forallb_app in H. apply andb_true_iff in H as [H1 H2].
  cbn [forallb] in H2. rewrite andb_true_r in H2. apply andb_true_iff in H2 as [D V]. apply Z.ltb_lt in V. pose proof (digit_value_range c D).
  rewrite fold_left_app. cbn [fold_left]. assert (c = ascii_of_nat (Z.to_nat (48 + digit_value c))) as Ec.
  { unfold digit_value. replace (Z.to_nat (48 + (Z.of_nat (nat_of_ascii c) - 48))) with (nat_of_ascii c) by lia. symmetry. apply ascii_nat_embedding. }
  rewrite Ec at 1. apply denotes_snoc; [now apply IH|lia].
Qed.
Lemma ex_number b default w ds n : 8 <= b <= 10 -> ds <> [] -> (length ds <= w)%nat -> forallb (fun c => is_digit c && (digit_value c <? b)) ds = true ->
  fold_left (fun acc c => acc * b + digit_value c) ds 0 = n -> number b default w ds n.
Proof. intros Hb N L H E. split; [exact L|]. right. split; [exact N|]. rewrite <- E. now apply denotes_fold. Qed.
Lemma ex_meta_ok size n : size <> [] -> (length size <= 10)%nat -> forallb (fun c => is_digit c && (digit_value c <? 10)) size = true ->
  fold_left (fun acc c => acc * 10 + digit_value c) size 0 = n -> meta_ok (ex_meta size n).
Proof.
  intros N L H E. unfold meta_ok. cbn [ex_meta d_mtime d_uid d_gid d_mode d_size v_mtime v_uid v_gid v_mode v_size]. split; [|split; [|split; [|split]]].
  - apply ex_number; [lia|discriminate|cbn; lia|reflexivity|reflexivity].
  - apply ex_number; [lia|discriminate|cbn; lia|reflexivity|reflexivity].
  - split; [vm_compute; lia|]. now left.
  - apply ex_number; [lia|discriminate|cbn; lia|reflexivity|reflexivity].
  - now apply ex_number; [lia| | | |].
Qed.

(** A symbol table, a table of long names, and members of all three styles with odd and even sizes. *)
Definition ex_parts : list part :=
  [Symbols (ex_meta $"3" 3) $"abc" [newline];
   Member (mkMember $"the first long name.o" (Gnu []) (ex_meta $"5" 5) $"hello" [newline]);
   Table (ex_meta $"36" 36) [$"the first long name.o"; $"the second"] [newline] [];
   Member (mkMember $"a b" (Short 2) (ex_meta $"4" 4) $"1234" []);
   Member (mkMember $"a name with spaces" (Bsd 2) (ex_meta $"23" 23) $"xyz" [newline])].

Lemma plain_ends n a b : (forall r, n <> "000"%char :: r) -> n = a ++ [b] -> b <> "000"%char -> (forall r, n <> "/"%char :: r) -> plain n.
Proof.
  intros H1 E Hb H3. split; [exact H1|]. split; [|exact H3]. intros r X. rewrite E in X. apply app_inj_tail in X as [_ X]. contradiction.
Qed.

Example C38_round_trip_example : archive_ok ex_parts /\ first_names ex_parts /\
  exists files, parse_ar (archive ex_parts) = Ok files /\ map a_name files = [$"the first long name.o"; $"a b"; $"a name with spaces"] /\
    map (fun f => zslice (archive ex_parts) (a_offset_data f) (a_size f)) files = [$"hello"; $"1234"; $"xyz"].
Proof.
  split; [|split].
  - exists (Some [$"the first long name.o"; $"the second"]). split.
    2:{ right. do 4 eexists. cbn [ex_parts]. right. right. now left. }
    cbn [parts_ok ex_parts]. split; [apply ex_meta_ok; [discriminate|cbn; lia|reflexivity|reflexivity]|]. split; [split; reflexivity|].
    split.
    { split; [apply ex_meta_ok; [discriminate|cbn; lia|reflexivity|reflexivity]|]. cbn [m_name m_style m_meta m_content m_fill]. split.
      - apply (plain_ends _ $"the first long name." "o"%char); [discriminate|reflexivity|discriminate|discriminate].
      - split; [vm_compute; lia|]. split; [split; reflexivity|]. exists [$"the second"]. reflexivity. }
    split; [apply ex_meta_ok; [discriminate|cbn; lia|reflexivity|reflexivity]|]. split; [reflexivity|]. split; [split; reflexivity|]. split; [right; split; reflexivity|].
    split.
    { repeat apply Forall_cons; try apply Forall_nil; cbn; intros I; repeat (destruct I as [I|I]; [discriminate I|]); exact I. }
    split; [|split; [|exact I]]; (split; [apply ex_meta_ok; [discriminate|cbn; lia|reflexivity|reflexivity]|]); cbn [m_name m_style m_meta m_content m_fill]; split.
    + apply (plain_ends _ $"a " "b"%char); [discriminate|reflexivity|discriminate|discriminate].
    + split; [vm_compute; lia|]. split; [intros r E; apply (app_inj_tail $"a " r "b"%char) in E as [_ E]; discriminate|]. split; [intros (r & E); discriminate|split; reflexivity].
    + apply (plain_ends _ $"a name with space" "s"%char); [discriminate|reflexivity|discriminate|discriminate].
    + split; [vm_compute; lia|]. split; reflexivity.
  - repeat apply Forall_cons; try apply Forall_nil; cbn; auto.
  - exists (match parse_ar (archive ex_parts) with Ok l => l | Err _ => [] end). vm_compute. repeat split; reflexivity.
Qed.

(** GNU long names other than the first are not found: the position in bytes is taken for the number of the name. *)
Definition ex_gnu : list part :=
  [Table (ex_meta $"36" 36) [$"the first long name.o"; $"the second"] [newline] [];
   Member (mkMember $"the second" (Gnu [$"the first long name.o"]) (ex_meta $"2" 2) $"hi" [])].
Theorem C38_gnu_refuted : ~ (forall ps, archive_ok ps ->
  exists files, parse_ar (archive ps) = Ok files /\ Forall2 (describes (archive ps)) (members ps) files).
Proof.
  intros H. destruct (H ex_gnu) as (files & E & D).
  - exists (Some [$"the first long name.o"; $"the second"]). split.
    2:{ right. do 4 eexists. cbn [ex_gnu]. now left. }
    cbn [parts_ok ex_gnu].
    split; [apply ex_meta_ok; [discriminate|cbn; lia|reflexivity|reflexivity]|]. split; [reflexivity|]. split; [split; reflexivity|]. split; [right; split; reflexivity|].
    split.
    { repeat apply Forall_cons; try apply Forall_nil; cbn; intros I; repeat (destruct I as [I|I]; [discriminate I|]); exact I. }
    split; [|exact I]. split; [apply ex_meta_ok; [discriminate|cbn; lia|reflexivity|reflexivity]|]. cbn [m_name m_style m_meta m_content m_fill]. split.
    + apply (plain_ends _ $"the secon" "d"%char); [discriminate|reflexivity|discriminate|discriminate].
    + split; [vm_compute; lia|]. split; [split; reflexivity|]. exists []. reflexivity.
  - assert (map a_name files = [$"/23"]) as N.
    { assert (match parse_ar (archive ex_gnu) with Ok l => map a_name l | Err _ => [] end = [$"/23"]) as X by (vm_compute; reflexivity). rewrite E in X. exact X. }
    cbn [members ex_gnu flat_map app] in D. inversion D as [|m f l1 l2 (Dn & _) _]; subst. cbn [map] in N. injection N as N _. rewrite N in Dn. discriminate Dn.
Qed.
Print Assumptions C38_gnu_refuted.

(** Thin archives: the link target is right but the name is the number in the header. *)
Definition ex_thin : list thin_part :=
  [TTable (ex_meta $"12" 12) [$"dir/a.o"; $"b"] []; TMember (ex_meta $"100" 100) [$"dir/a.o"] $"b"; TMember (ex_meta $"200" 200) [] $"dir/a.o"].
Example C38_thin_example : thin_ok None ex_thin /\
  match parse_ar (thin_archive ex_thin) with Ok l => map (fun f => (a_name f, a_linkname f)) l | Err _ => [] end = [($"/9", $"b"); ($"/0", $"dir/a.o")].
Proof.
  split; [|vm_compute; reflexivity]. cbn [thin_ok ex_thin].
  split; [apply ex_meta_ok; [discriminate|cbn; lia|reflexivity|]|]. 1: reflexivity.
  split; [reflexivity|]. split; [reflexivity|]. split; [discriminate|]. split; [now left|]. split.
  { repeat apply Forall_cons; try apply Forall_nil; cbn; intros I; repeat (destruct I as [I|I]; [discriminate I|]); exact I. }
  split; [apply ex_meta_ok; [discriminate|cbn; lia|reflexivity|reflexivity]|]. split; [vm_compute; lia|]. split; [exists []; reflexivity|].
  split; [apply ex_meta_ok; [discriminate|cbn; lia|reflexivity|reflexivity]|]. split; [vm_compute; lia|]. split; [exists [$"b"]; reflexivity|exact I].
Qed.
Theorem C38_thin_names_refuted : ~ (forall ps files, thin_ok None ps -> parse_ar (thin_archive ps) = Ok files ->
  map a_name files = map snd (thin_members ps)).
Proof.
  intros H. destruct C38_thin_example as [W E].
  destruct (parse_ar (thin_archive ex_thin)) as [l|] eqn:X; [|discriminate]. specialize (H ex_thin l W X).
  assert (map fst (map (fun f => (a_name f, a_linkname f)) l) = [$"/9"; $"/0"]) as Y by now rewrite E. rewrite map_map in Y. cbn [fst] in Y.
  assert (map (fun x => a_name x) l = map snd (thin_members ex_thin)) as Z0 by exact H. rewrite Y in Z0. discriminate Z0.
Qed.
Print Assumptions C38_thin_names_refuted.

(** A BSD name longer than the size in the header makes the size negative. *)
Theorem C38_size_refuted : ~ (forall data files, parse_ar data = Ok files -> Forall (fun f => 0 <= a_size f) files).
Proof.
  intros H. set (data := magic ++ head_of $"#1/4" (ex_meta $"3" 3) ++ $"name").
  specialize (H data (match parse_ar data with Ok l => l | Err _ => [] end)).
  assert (Forall (fun f => 0 <= a_size f) (match parse_ar data with Ok l => l | Err _ => [] end)) as F by (apply H; vm_compute; reflexivity).
  assert (match (match parse_ar data with Ok l => l | Err _ => [] end) with f :: _ => a_size f | [] => 0 end = -1) as S by (vm_compute; reflexivity).
  destruct (match parse_ar data with Ok l => l | Err _ => [] end) as [|f l]; [discriminate|]. inversion F; subst. lia.
Qed.
Print Assumptions C38_size_refuted.
