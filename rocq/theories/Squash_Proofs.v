From Coq Require Import Ascii String.
From Verif Require Import PyBase PyDict PyStr Path_Model Path_Spec Path_Proofs FileInfo Index_Model Index_Spec Index_Proofs Tar_Model Tar_Proofs Member_Proofs MemFile_Spec
  Squash_Model Squash_Spec.
Local Open Scope Z_scope.

Section File.
  Context {A : Type}.
  Variable zero : A.
  Variable file : squash_file A.
  Variable bs : Z.
  Variable content : list A.
  Hypothesis BS : 0 < bs.
  Hypothesis ST : stores zero file bs content.
  Let n := length (sq_blocks file).
  Definition part (b : Z) : list A := zslice content (b * bs) bs.

  Lemma part_piece i : part (Z.of_nat i) = piece content bs i.
  Proof. reflexivity. Qed.
  Lemma len_part b : 0 <= b -> len (part b) = Z.min bs (Z.max 0 (len content - b * bs)).
  Proof. intros B. unfold part. apply len_zslice; [apply Z.mul_nonneg_nonneg; lia|lia]. Qed.
  Lemma all_zero (l : list A) : Forall (eq zero) l -> l = repeat zero (length l).
  Proof. induction 1 as [|x l <- _ IH]; [reflexivity|]. cbn. now f_equal. Qed.

  Lemma refill_part o b : 0 <= b -> refill zero file bs o b = Ok (mkSQ o b (part b) 0).
  Proof.
    intros B. destruct ST as (S & Bl & Fr). cbv zeta in Fr. fold n in Fr. unfold refill. destruct (Z.ltb_spec b 0); [lia|]. fold n. f_equal. f_equal.
    destruct (Z.ltb_spec b (Z.of_nat n)) as [L|L].
    - destruct (nth_error (sq_blocks file) (Z.to_nat b)) as [x|] eqn:E.
      2:{ apply nth_error_None in E. fold n in E. lia. }
      specialize (Bl _ _ E). rewrite <- part_piece, Z2Nat.id in Bl by lia. destruct x as [d|]; [exact Bl|].
      apply all_zero in Bl. rewrite Bl. f_equal. pose proof (len_part b B) as LP. unfold len in LP. rewrite S.
      assert (E' : Z.of_nat (length content) = len content) by reflexivity. rewrite E' in *.
      destruct (Z.leb_spec (len content) ((b + 1) * bs)); nia.
    - destruct (sq_fragment file) as [d|].
      + destruct Fr as (Fd & Fl). destruct (Z.eqb_spec b (Z.of_nat n)) as [->|Nb]; [exact Fd|].
        symmetry. apply zslice_nil_ge. change (Z.of_nat (length content)) with (len content) in Fl. nia.
      + symmetry. apply zslice_nil_ge. change (Z.of_nat (length content)) with (len content) in Fr.
        assert (Z.of_nat n * bs <= b * bs) by (apply Z.mul_le_mono_nonneg_r; lia). lia.
  Qed.

  (** The state is at position [p] (behind the end, all positions are alike). *)
  Definition at_pos (st : sq_state A) (p : Z) : Prop :=
    0 <= p /\ 0 <= s_block st /\ s_buffer st = part (s_block st) /\ 0 <= s_pos st <= bs /\
    (s_block st * bs + s_pos st = p \/ len content <= s_block st * bs + s_pos st /\ len content <= p).
  Definition nonempty {X} (l : list X) : nat := match l with [] => 0 | _ => 1 end.
  Definition need (st : sq_state A) : nat := Z.to_nat (Z.of_nat n + 1 - s_block st) + nonempty (zskip (s_pos st) (s_buffer st)) + 1.

  Lemma zskip_part b q : 0 <= b -> 0 <= q <= bs -> exists tail, zskip (b * bs + q) content = zskip q (part b) ++ tail /\ (zskip q (part b) = [] -> q < bs -> tail = []).
  Proof.
    intros B Q. unfold part, zslice. set (c := zskip (b * bs) content).
    assert (E : zskip (b * bs + q) content = zskip q c) by (unfold c; rewrite zskip_zskip by nia; f_equal; lia). rewrite E.
    exists (zskip bs c). split.
    - rewrite <- (ztake_zskip bs c) at 1 by lia. destruct (Z.le_gt_cases q (len (ztake bs c))) as [L|L]; [apply zskip_app_le; lia|].
      rewrite len_ztake in L by lia. rewrite (zskip_all q (ztake bs c)) by (rewrite len_ztake; lia). cbn [app].
      assert (len c < bs) by lia. rewrite zskip_app_ge by (rewrite len_ztake; lia). rewrite len_ztake by lia.
      rewrite (zskip_all bs c) by lia. apply zskip_all. change (len []) with 0. lia.
    - intros E0 L. apply zskip_all. apply (f_equal len) in E0. change (len []) with 0 in E0. rewrite len_zskip, len_ztake in E0 by lia. lia.
  Qed.
  Lemma skip_beyond p : len content <= p -> zskip p content = [].
  Proof. apply zskip_all. Qed.

  Lemma file_read_prefix (l : list A) q size : size <> 0 -> 0 <= q -> let d := file_read l q size in
    exists more, zskip q l = d ++ more /\ (d = [] -> zskip q l = []) /\ (0 <= size -> len d <= size) /\ (more = [] \/ 0 <= size /\ len d = size).
  Proof.
    intros S Q d. unfold file_read in d. destruct (Z.ltb_spec size 0) as [L|L].
    - exists []. rewrite app_nil_r. repeat split; (lia || auto).
    - unfold d, zslice. exists (zskip size (zskip q l)). split; [symmetry; apply ztake_zskip; lia|].
      pose proof (len_ztake size (zskip q l) L) as LT. pose proof (len_nonneg (zskip q l)). split; [|split; [intros _; lia|]].
      + intros E0. fold (ztake size (zskip q l)) in E0. rewrite E0 in LT. change (len []) with 0 in LT. apply len_zero. lia.
      + destruct (Z.le_gt_cases (len (zskip q l)) size); [left; now apply zskip_all|right; lia].
  Qed.

  Lemma read1_spec st p size : at_pos st p -> size <> 0 -> exists d st' tail,
    read1 zero file bs st size = Ok (d, st') /\ at_pos st' (p + len d) /\ s_offset st' = s_offset st /\ zskip p content = d ++ tail /\ (d = [] -> tail = []) /\
    (0 <= size -> len d <= size) /\ (d <> [] -> (2 <= need st)%nat /\ (0 <= size /\ len d = size \/ (need st' < need st)%nat)).
  Proof.
    intros (P & B & Bu & Q & W) S. unfold read1, buffer_read. rewrite Bu.
    destruct (file_read_prefix (part (s_block st)) (s_pos st) size S) as (more & F1 & F2 & F3 & F4); [lia|].
    set (d := file_read (part (s_block st)) (s_pos st) size) in *.
    destruct (zskip_part (s_block st) (s_pos st) B Q) as (tail & T1 & T2).
    pose proof (len_part (s_block st) B) as LP. pose proof (len_nonneg d) as LD. pose proof (len_nonneg content) as LC.
    assert (LF : len d + len more = Z.max 0 (len (part (s_block st)) - s_pos st)) by (rewrite <- len_zskip by lia; rewrite F1; now rewrite len_app).
    pose proof (len_nonneg more) as LM.
    destruct d as [|x d'] eqn:D.
    - specialize (F2 eq_refl). rewrite F2 in T1, T2. cbn [app] in T1. destruct (part (s_block st)) as [|y l] eqn:PP.
      + (* the end of the file *)
        exists [], (mkSQ (s_offset st) (s_block st) [] (s_pos st + len (@nil A))), []. change (len []) with 0. rewrite !Z.add_0_r.
        assert (E : len content <= s_block st * bs) by (change (len []) with 0 in LP; lia).
        split; [cbn [app]; rewrite ?Z.add_0_r; reflexivity|]. split.
        { split; [exact P|]. split; [exact B|]. split; [cbn; now rewrite PP|]. split; [exact Q|]. exact W. }
        split; [reflexivity|]. split; [apply skip_beyond; nia|]. split; [reflexivity|]. split; [intros; lia|congruence].
      + (* the next block *)
        cbn [s_offset s_block]. rewrite refill_part by lia. unfold buffer_read. cbn [s_buffer s_pos s_offset s_block]. change (0 + len ?x) with (len x).
        set (b := s_block st + 1).
        destruct (file_read_prefix (part b) 0 size S) as (more' & G1 & G2 & G3 & G4); [lia|]. rewrite zskip_0 in *.
        set (e := file_read (part b) 0 size) in *. pose proof (len_part b) as LB. pose proof (len_nonneg e) as LE. pose proof (len_nonneg more') as LM'.
        assert (LG : len e + len more' = len (part b)) by (rewrite G1; now rewrite len_app). specialize (LB ltac:(lia)).
        destruct (zskip_part b 0 ltac:(lia) ltac:(lia)) as (tail' & U1 & U2). rewrite zskip_0, Z.add_0_r in *.
        assert (Wb : len content <= p \/ b * bs = p /\ s_pos st = bs).
        { destruct (Z.le_gt_cases (len content) p) as [|X]; [now left|right].
          destruct W as [W|W]; [|lia]. 
          assert (E1 : len (y :: l) <= s_pos st). { assert (M0 : more = []) by (rewrite F2 in F1; now symmetry in F1). rewrite M0 in LF. change (@len A []) with 0 in LF. lia. }
          unfold b. split; lia. }
        exists e, (mkSQ (s_offset st) b (part b) (len e)), (more' ++ tail'). split; [reflexivity|]. split.
        { unfold at_pos. cbn [s_block s_buffer s_pos]. split; [lia|]. split; [lia|]. split; [reflexivity|]. split; [lia|].
          destruct Wb as [X|(X & _)]; [right; nia|left; lia]. }
        split; [reflexivity|]. split.
        { destruct Wb as [X|(X & _)].
          - rewrite skip_beyond by exact X. assert (Z0 : part b = []).
            { apply zslice_nil_ge. unfold b. destruct W as [W|W]; nia. }
            rewrite Z0 in G1, U1. symmetry in G1. apply app_eq_nil in G1 as (-> & ->). cbn [app].
            cbn [app] in U1. rewrite <- U1. symmetry. apply skip_beyond. unfold b. destruct W as [W|W]; nia.
          - rewrite <- X, U1, G1. now rewrite app_assoc. }
        split.
        { intros Z0. specialize (G2 Z0). rewrite Z0, G2 in G1. cbn [app] in G1. rewrite <- G1. cbn [app]. apply U2; [exact G2|lia]. }
        split; [exact G3|]. intros NE.
        assert (Hb : b <= Z.of_nat n).
        { destruct ST as (_ & _ & Fr). cbv zeta in Fr. fold n in Fr. change (Z.of_nat (length content)) with (len content) in Fr.
          assert (0 < len e) by (destruct e; [congruence|rewrite len_cons; pose proof (len_nonneg e); lia]).
          destruct (sq_fragment file); [destruct Fr as (_ & Fr)|]; nia. }
        split; [unfold need; lia|].
        destruct G4 as [G4|G4]; [right|left; exact G4].
        unfold need. cbn [s_block s_pos s_buffer]. rewrite Bu, F2. cbn [nonempty].
        assert (Z1 : zskip (len e) (part b) = []) by (apply zskip_all; rewrite G4 in LG; change (len []) with 0 in LG; lia). rewrite Z1. cbn [nonempty].
        lia.
    - assert (NB : exists y l, part (s_block st) = y :: l).
      { destruct (part (s_block st)) as [|y l]; [|now exists y, l]. exfalso. change (len []) with 0 in *. rewrite len_cons in LF. pose proof (len_nonneg d'). lia. }
      set (dd := x :: d') in *. assert (Hd : 0 < len dd) by (unfold dd; rewrite len_cons; pose proof (len_nonneg d'); lia).
      assert (Wp : s_block st * bs + s_pos st = p).
      { destruct W as [W|(W1 & W2)]; [exact W|]. exfalso. nia. }
      exists dd, (mkSQ (s_offset st) (s_block st) (s_buffer st) (s_pos st + len dd)), (more ++ tail). split; [now rewrite Bu|]. split.
      { unfold at_pos. cbn [s_block s_buffer s_pos]. repeat split; try lia; try assumption. }
      split; [reflexivity|]. split; [rewrite <- Wp, T1, F1; now rewrite app_assoc|]. split; [discriminate|]. split; [exact F3|]. intros _. split; [unfold need; rewrite Bu, F1; unfold dd; cbn [nonempty app]; lia|].
      destruct F4 as [F4|F4]; [right|left; exact F4]. unfold need. cbn [s_block s_pos s_buffer]. rewrite Bu.
      assert (Z1 : zskip (s_pos st + len dd) (part (s_block st)) = []) by (apply zskip_all; rewrite F4 in LF; change (len []) with 0 in LF; lia).
      rewrite Z1, F1. unfold dd; cbn [nonempty app]. lia.
  Qed.

  (** What a read of [size] bytes with [done] bytes read already has to add. *)
  Definition wanted (p size : Z) : list A := if size <? 0 then zskip p content else zslice content p size.
  Lemma wanted_nil p size : zskip p content = [] -> wanted p size = [].
  Proof. intros E. unfold wanted, zslice. rewrite E. destruct (size <? 0); [reflexivity|apply firstn_nil]. Qed.
  Lemma wanted_more p size d tail : 0 <= p -> zskip p content = d ++ tail -> (0 <= size -> len d <= size) -> size < 0 \/ 0 <= size ->
    wanted p size = d ++ wanted (p + len d) (if size <? 0 then size else size - len d).
  Proof.
    intros P E L _. pose proof (len_nonneg d). assert (E2 : zskip (p + len d) content = tail).
    { replace (p + len d) with (len d + p) by lia. rewrite <- zskip_zskip by lia. rewrite E. rewrite zskip_app_ge by lia. rewrite Z.sub_diag. apply zskip_0. }
    unfold wanted. destruct (Z.ltb_spec size 0) as [N|N].
    - destruct (Z.ltb_spec size 0); [|lia]. now rewrite E2, <- E.
    - specialize (L N). destruct (Z.ltb_spec (size - len d) 0); [lia|]. unfold zslice. rewrite E2, E. unfold ztake. rewrite firstn_app, firstn_all2 by (unfold len in *; lia). do 2 f_equal. unfold len in *. lia.
  Qed.

  Lemma read_loop_spec : forall fuel st p size result, at_pos st p -> (need st <= fuel)%nat \/ 0 <= size <= len result /\ (0 < fuel)%nat ->
    (0 <= size -> len result <= size) -> exists st',
      let d := wanted p (if size <? 0 then size else size - len result) in
      read_loop zero file bs fuel st size result = Ok (result ++ d, st') /\ at_pos st' (p + len d) /\ s_offset st' = s_offset st.
  Proof.
    induction fuel as [|fuel IH]; intros st p size result W Fu Le; [unfold need in Fu; lia|]. cbn [read_loop].
    pose proof (len_nonneg result) as LR.
    destruct (Z.ltb_spec size 0) as [N|N]; cbn [orb].
    2: destruct (Z.ltb_spec (len result) size) as [N2|N2].
    3:{ exists st. specialize (Le N). replace (size - len result) with 0 by lia. assert (E : wanted p 0 = []) by (unfold wanted; cbn; apply zslice_le0; lia).
        rewrite E, app_nil_r. change (len []) with 0. rewrite Z.add_0_r. auto. }
    - destruct (read1_spec st p size W ltac:(lia)) as (d & st1 & tail & E1 & W1 & O1 & T1 & Z1 & L1 & M1). rewrite E1.
      rewrite (wanted_more p size d tail); [|apply W|exact T1|exact L1|lia]. destruct (Z.ltb_spec size 0) as [_|]; [|lia].
      destruct d as [|x d].
      + exists st1. rewrite (Z1 eq_refl) in T1. change (len []) with 0 in *. rewrite Z.add_0_r in *. rewrite (wanted_nil p size) by exact T1. cbn [app].
        rewrite app_nil_r. change (len []) with 0. rewrite Z.add_0_r. auto.
      + assert (ND : x :: d <> []) by discriminate. set (dd := x :: d) in *. specialize (M1 ND).
        destruct (IH st1 (p + len dd) size (result ++ dd) W1 ltac:(left; lia) ltac:(lia)) as (st2 & R2 & W2 & O2).
        destruct (Z.ltb_spec size 0) as [_|]; [|lia]. exists st2. rewrite R2, app_assoc. split; [reflexivity|]. split; [|congruence].
        rewrite len_app, Z.add_assoc. exact W2.
    - set (k := size - len result). destruct (read1_spec st p k W ltac:(lia)) as (d & st1 & tail & E1 & W1 & O1 & T1 & Z1 & L1 & M1). rewrite E1.
      rewrite (wanted_more p k d tail); [|apply W|exact T1|exact L1|lia]. destruct (Z.ltb_spec k 0) as [|_]; [lia|].
      destruct d as [|x d].
      + exists st1. rewrite (Z1 eq_refl) in T1. change (len []) with 0 in *. rewrite Z.add_0_r, Z.sub_0_r in *. rewrite (wanted_nil p k) by exact T1. cbn [app].
        rewrite app_nil_r. change (len []) with 0. rewrite Z.add_0_r. auto.
      + assert (ND : x :: d <> []) by discriminate. set (dd := x :: d) in *. specialize (M1 ND). specialize (L1 ltac:(lia)).
        destruct (IH st1 (p + len dd) size (result ++ dd) W1) as (st2 & R2 & W2 & O2).
        * rewrite len_app. destruct M1 as (M0 & [M1|M1]); [right|left; lia]. split; lia.
        * rewrite len_app. lia.
        * destruct (Z.ltb_spec size 0) as [|_]; [lia|]. rewrite len_app in *. replace (size - (len result + len dd)) with (k - len dd) in * by lia.
          exists st2. rewrite R2, app_assoc. split; [reflexivity|]. split; [|congruence]. rewrite Z.add_assoc. exact W2.
  Qed.

  Lemma sq_read_spec st p size : at_pos st p -> exists st', sq_read zero file bs st size = Ok (wanted p size, st') /\ at_pos st' (p + len (wanted p size)) /\ s_offset st' = s_offset st.
  Proof.
    intros W. destruct (read_loop_spec (3 + n) st p size [] W) as (st' & R & W' & O').
    - left. destruct W as (_ & B & _). unfold need. destruct (zskip _ _); cbn [nonempty]; lia.
    - change (@len A []) with 0. lia.
    - exists st'. change (@len A []) with 0 in *. rewrite Z.sub_0_r in *. unfold sq_read. fold n. destruct (size <? 0); auto.
  Qed.

  Lemma sq_seek_spec st p t w : at_pos st p -> w <> 1 -> let t' := if w =? 2 then t + len content else t in 0 <= t' ->
    exists st', sq_seek zero file bs st t w = Ok (Z.min t' (len content), st') /\ at_pos st' t' /\ s_offset st' = Z.min t' (len content).
  Proof.
    intros (P & B & Bu & Q & W) Nw t' T. unfold sq_seek. destruct (Z.eqb_spec w 1); [lia|].
    assert (S : sq_size file = len content) by apply ST. rewrite S. fold t'.
    pose proof (len_nonneg content) as LC. replace (Z.max 0 (Z.min t' (len content))) with (Z.min t' (len content)) by lia.
    pose proof (len_part (s_block st) B) as LP.
    destruct (Z.ltb_spec t' (s_block st * bs)) as [L1|L1]; cbn [orb]; [|destruct (Z.leb_spec (s_block st * bs + len (s_buffer st)) t') as [L2|L2]].
    1,2: pose proof (Z.div_mod t' bs ltac:(lia)) as DM; pose proof (Z.mod_pos_bound t' bs BS) as MB; pose proof (Z.div_pos t' bs T BS) as DP;
      rewrite refill_part by exact DP; cbn [s_block s_buffer s_pos];
      destruct (Z.ltb_spec (t' - t' / bs * bs) 0); [lia|]; eexists; split; [reflexivity|]; split; [|reflexivity];
      unfold at_pos; cbn [s_block s_buffer s_pos]; split; [exact T|]; split; [exact DP|]; split; [reflexivity|]; split; [lia|left; lia].
    cbn [s_block s_buffer s_pos]. destruct (Z.ltb_spec (t' - s_block st * bs) 0); [lia|]. eexists. split; [reflexivity|]. split; [|reflexivity].
    unfold at_pos; cbn [s_block s_buffer s_pos]; split; [exact T|]; split; [exact B|]; split; [exact Bu|]. rewrite Bu in L2. split; [lia|left; lia].
  Qed.

  Definition absolute (c : call) : Prop := match c with CSeek _ FromCurrent | CTell => False | _ => True end.
  Lemma run_spec : forall cs st p, at_pos st p -> Forall absolute cs -> no_negative_seek content p cs ->
    sq_run zero file bs st cs = map (clip (Z.of_nat (length content))) (mem_run content p cs).
  Proof.
    induction cs as [|c cs IH]; intros st p W F N; [reflexivity|]. pose proof (Forall_inv F) as F1. apply Forall_inv_tail in F.
    destruct N as (N1 & N). destruct c as [o w|k|]; [|..].
    - cbn [sq_run mem_run]. destruct (sq_seek_spec st p o (whence_of w) W) as (st' & E & W' & _).
      + destruct w; cbn in *; [lia|tauto|lia].
      + destruct w; cbn in *; [lia|tauto|]. unfold len. lia.
      + rewrite E. cbn [mem_call] in *. assert (T : (if whence_of w =? 2 then o + len content else o) = target content p o w).
        { destruct w; cbn in *; [reflexivity|tauto|unfold len; lia]. }
        rewrite T in *. cbn [absolute] in *. destruct (Z.ltb_spec (target content p o w) 0); [lia|]. cbn [map clip]. f_equal. now apply IH.
    - cbn [sq_run mem_run mem_call map clip]. destruct (sq_read_spec st p k W) as (st' & E & W' & _). rewrite E. apply (f_equal (cons _)).
      apply IH; [exact W'|exact F|exact N].
    - destruct F1.
  Qed.

  Lemma open_at : exists st, sq_open zero file bs = Ok st /\ at_pos st 0 /\ s_offset st = 0.
  Proof.
    unfold sq_open. rewrite refill_part by lia. eexists. split; [reflexivity|]. split; [|reflexivity]. unfold at_pos. cbn [s_block s_buffer s_pos]. repeat split; lia.
  Qed.
End File.

Lemma join_split start off : 0 <= start < 4294967296 -> 0 <= off < 65536 ->
  join_inode_offset start off = Ok (start * 65536 + off) /\ split_inode_offset (start * 65536 + off) = (start, off).
Proof.
  intros S O. unfold join_inode_offset, split_inode_offset. change (2 ^ 32) with 4294967296. change (2 ^ 16) with 65536.
  destruct (Z.ltb_spec start 4294967296); [|lia]. destruct (Z.ltb_spec off 65536); [|lia]. cbn [negb].
  rewrite Z.shiftl_mul_pow2, Z.shiftr_div_pow2 by lia. change (2 ^ 16) with 65536. split; [reflexivity|]. f_equal.
  - rewrite Z.div_add_l by lia. rewrite Z.div_small by lia. lia.
  - change 65535 with (Z.ones 16). rewrite Z.land_ones by lia. change (2 ^ 16) with 65536. rewrite Z.add_comm, Z.mod_add by lia. apply Z.mod_small. lia.
Qed.

Lemma entry_unique {X} (entries : list (str * X)) n c d : NoDup (map fst entries) -> In (n, c) entries -> In (n, d) entries -> c = d.
Proof.
  induction entries as [|(m, x) l IH]; intros N H1 H2; [destruct H1|]. cbn in N. inversion N as [|? ? N1 N2]; subst.
  destruct H1 as [H1|H1], H2 as [H2|H2]; try congruence; [..|now apply IH].
  - injection H1 as -> ->. exfalso. apply N1. change n with (fst (n, d)). now apply in_map.
  - injection H2 as -> ->. exfalso. apply N1. change n with (fst (n, c)). now apply in_map.
Qed.
Lemma node_inv i entries n loc j : node_at (SqTree i entries) (n :: loc) j -> si_kind i = SqDirectory /\ exists c, In (n, c) entries /\ node_at c loc j.
Proof. intros H. inversion H; subst. split; [assumption|]. now exists c. Qed.
Lemma node_root i entries j : node_at (SqTree i entries) [] j -> j = i.
Proof. intros H. now inversion H. Qed.
Lemma image_inv i entries : image (SqTree i entries) -> 0 <= si_start i < 4294967296 /\ 0 <= si_offset i < 65536 /\ NoDup (map fst entries) /\
  forall name c, In (name, c) entries -> proper_name name /\ image c.
Proof. intros H. now inversion H. Qed.

Lemma node_unique loc : forall t, image t -> forall i j, node_at t loc i -> node_at t loc j -> i = j.
Proof.
  induction loc as [|n loc IH]; intros [r entries] Im i j H1 H2; [apply node_root in H1, H2; congruence|].
  apply node_inv in H1 as (_ & c & I1 & H1). apply node_inv in H2 as (_ & d & I2 & H2). apply image_inv in Im as (_ & _ & N & S).
  pose proof (entry_unique _ _ _ _ N I1 I2) as <-. apply (IH c); [now apply (S n)|assumption..].
Qed.
Lemma node_proper loc : forall t, image t -> forall i, node_at t loc i -> Forall proper_name loc.
Proof.
  induction loc as [|n loc IH]; intros [r entries] Im i H; [constructor|]. apply node_inv in H as (_ & c & I & H). apply image_inv in Im as (_ & _ & N & S).
  destruct (S n c I) as (S1 & S2). constructor; [exact S1|]. now apply (IH c S2 i).
Qed.
Lemma node_folder loc : forall t rest i j, node_at t loc i -> node_at t (loc ++ rest) j -> image t -> rest <> [] -> si_kind i = SqDirectory.
Proof.
  induction loc as [|n loc IH]; intros [r entries] rest i j H1 H2 Im R.
  - apply node_root in H1 as ->. destruct rest; [congruence|]. now apply node_inv in H2 as (K & _).
  - cbn [app] in H2. apply node_inv in H1 as (_ & c & I1 & H1). apply node_inv in H2 as (_ & d & I2 & H2). apply image_inv in Im as (_ & _ & N & S).
    pose proof (entry_unique _ _ _ _ N I1 I2) as <-. apply (IH c rest i j); auto. now apply (S n).
Qed.
Lemma node_parent loc : forall t rest j, node_at t (loc ++ rest) j -> exists i, node_at t loc i.
Proof.
  induction loc as [|n loc IH]; intros [r entries] rest j H; [eexists; constructor|].
  cbn [app] in H. apply node_inv in H as (K & c & I & H). destruct (IH c rest j H) as (i' & Hi). exists i'. econstructor; eassumption.
Qed.
Lemma node_range loc : forall t, image t -> forall i, node_at t loc i -> 0 <= si_start i < 4294967296 /\ 0 <= si_offset i < 65536.
Proof.
  induction loc as [|n loc IH]; intros [r entries] Im i H; apply image_inv in Im as (S & O & N & P); [apply node_root in H as ->; now split|].
  apply node_inv in H as (_ & c & I & H). apply (IH c); [now apply (P n)|assumption].
Qed.

Definition listed_as (i : sq_inode) : Z := si_start i * 65536 + si_offset i.
Lemma iterate_spec : forall t names, image t -> exists l, iterate names t = Ok l /\
  forall o p i, In (o, (p, i)) l <-> exists loc, p = names ++ loc /\ node_at t loc i /\ o = listed_as i.
Proof.
  fix IH 1. intros [i entries] names Im. inversion Im as [? ? S O N P]; subst. cbn [iterate]. rewrite (proj1 (join_split _ _ S O)).
  unfold is_directory. destruct (si_kind i) eqn:K.
  2,3,4: eexists; split; [reflexivity|]; intros o p j; split; [intros [E|[]]; injection E as <- <- <-; exists []; rewrite app_nil_r; repeat split; constructor|];
    intros (loc & -> & H & ->); inversion H; subst; [rewrite app_nil_r; now left|congruence].
  set (all := fix all entries := match entries with [] => Ok [] | (name, c) :: entries => _ end).
  assert (L : exists l, all entries = Ok l /\ forall o p j, In (o, (p, j)) l <-> exists name c loc, In (name, c) entries /\ p = names ++ name :: loc /\ node_at c loc j /\ o = listed_as j).
  { clear N K Im S O. revert entries P. fix IHe 1. intros [|(name, c) entries] P.
    - exists []. split; [reflexivity|]. intros o p j. split; [intros []|]. intros (? & ? & ? & [] & _).
    - destruct (IH c (names ++ [name])) as (a & Ea & Sa); [now apply (P name c); left|].
      destruct (IHe entries) as (b & Eb & Sb); [intros n' c' I; apply P; now right|].
      exists (a ++ b). split; [unfold all; fold all; now rewrite Ea, Eb|]. intros o p j. rewrite in_app_iff, Sa, Sb. split.
      + intros [(loc & -> & H & ->)|(n' & c' & loc & I & -> & H & ->)].
        * exists name, c, loc. split; [now left|]. split; [now rewrite <- app_assoc|]. now split.
        * exists n', c', loc. split; [now right|]. now repeat split.
      + intros (n' & c' & loc & [E|I] & -> & H & ->).
        * injection E as <- <-. left. exists loc. split; [now rewrite <- app_assoc|]. now split.
        * right. exists n', c', loc. now repeat split. }
  destruct L as (l & El & Sl). rewrite El. eexists. split; [reflexivity|]. intros o p j. cbn [In]. rewrite Sl. split.
  - intros [E|(name & c & loc & I & -> & H & ->)].
    + injection E as <- <- <-. exists []. rewrite app_nil_r. repeat split; constructor.
    + exists (name :: loc). split; [reflexivity|]. split; [now apply (node_below i entries name c)|reflexivity].
  - intros (loc & -> & H & ->). inversion H; subst; [left; now rewrite app_nil_r|right]. exists name, c, loc0. now repeat split.
Qed.

Definition location_in (e : Z * (list str * sq_inode)) : location := denotes (path_of (fst (snd e))).
Lemma squash_row_fields e : let r := squash_row (fun p => p) e in let i := snd (snd e) in
  full_path r = written (location_in e) /\ ~ In slash (r_name r) /\ r_offsetheader r = fst e /\ r_mtime r = si_time i /\
  r_size r = match si_kind i with SqRegular => si_size i | _ => 0 end /\ r_linkname r = match si_kind i with SqSymlink => si_target i | _ => [] end /\
  r_mode r = Z.lor (si_mode i) (match si_kind i with SqSymlink => S_IFLNK | SqDirectory => S_IFDIR | _ => S_IFREG end).
Proof.
  destruct e as (o & names & i). unfold squash_row, location_in. cbn [fst snd]. rewrite normpath_written.
  destruct (split_last_written (denotes (path_of names)) (denotes_proper _)) as (a & b & -> & E & N).
  cbn [r_path r_name r_offsetheader r_size r_mtime r_linkname r_mode full_path]. repeat split; try assumption. unfold is_directory. now destruct (si_kind i).
Qed.
Lemma location_names o names i : Forall proper_name names -> location_in (o, (names, i)) = names.
Proof. intros P. unfold location_in, path_of. cbn [fst snd]. now apply denotes_written. Qed.

Lemma last_occurrence {X} (f : X -> bool) l x : In x l -> f x = true -> exists before y after, l = before ++ y :: after /\ f y = true /\ forall z, In z after -> f z = false.
Proof.
  induction l as [|a l IH] using rev_ind; intros I F; [destruct I|]. destruct (f a) eqn:E.
  - exists l, a, []. split; [reflexivity|]. split; [exact E|intros z []].
  - apply in_app_or in I as [I|[->|[]]]; [|congruence]. destruct (IH I F) as (b & y & c & -> & Fy & Hc). exists b, y, (c ++ [a]).
    rewrite <- app_assoc. split; [reflexivity|]. split; [exact Fy|]. intros z Iz. apply in_app_or in Iz as [Iz|[<-|[]]]; [now apply Hc|exact E].
Qed.

Section Image.
  Variable root : sq_tree.
  Hypothesis Im : image root.
  Variables now uid gid : Z.
  Variable sh : list row -> list row.
  Hypothesis O : any_order sh.

  Lemma squash_lookup loc i index : squash_index (fun p => p) root = Ok index -> loc <> [] -> node_at root loc i ->
    is_dir_mode (Z.lor (si_mode i) S_IFDIR) = true \/ si_kind i <> SqDirectory ->
    lookup now uid gid sh index (written loc) 0 = Some (row_to_file_info (squash_row (fun p => p) (listed_as i, (loc, i)))).
  Proof.
    intros X NE H D. unfold squash_index in X. destruct (iterate_spec root [] Im) as (l & El & Sl). rewrite El in X. injection X as <-. cbn [app] in Sl.
    pose proof (node_proper loc root Im i H) as P.
    assert (I : In (listed_as i, (loc, i)) l) by (apply Sl; now exists loc).
    destruct (last_occurrence (fun e => if list_eq_dec (list_eq_dec ascii_dec) (fst (snd e)) loc then true else false) l _ I) as (before & e & after & E & Fe & Fa).
    { cbn [fst snd]. now destruct (list_eq_dec _ loc loc). }
    assert (Loc : forall e', In e' l -> Forall proper_name (fst (snd e')) /\ location_in e' = fst (snd e') /\ node_at root (fst (snd e')) (snd (snd e')) /\ fst e' = listed_as (snd (snd e'))).
    { intros (o' & p' & i') I'. apply Sl in I' as (? & -> & H' & ->). pose proof (node_proper _ root Im i' H') as P'. cbn [fst snd]. rewrite location_names by exact P'. auto. }
    assert (Ee : e = (listed_as i, (loc, i))).
    { destruct (Loc e) as (_ & _ & He & Oe); [rewrite E; apply in_or_app; right; now left|]. destruct e as (o' & p' & i'). cbn [fst snd] in *.
      destruct (list_eq_dec _ p' loc) as [->|]; [|discriminate]. pose proof (node_unique loc root Im _ _ He H) as ->. now subst o'. }
    rewrite E. rewrite <- Ee.
    apply (member_lookup (squash_row (fun p => p)) location_in (fun e => proj1 (squash_row_fields e)) (fun e => proj1 (proj2 (squash_row_fields e))) (fun e => denotes_proper _)); auto.
    - rewrite Ee. now apply location_names.
    - intros e' I' L'. destruct (Loc e') as (P' & Q' & H' & O'); [rewrite E; apply in_or_app; now left|].
      destruct (squash_row_fields e') as (_ & _ & -> & _), (squash_row_fields e) as (_ & _ & -> & _).
      rewrite Q' in L'. rewrite L' in H'. pose proof (node_unique loc root Im _ _ H' H) as U. rewrite O', U, Ee. cbn [fst]. lia.
    - intros e' I' L'. destruct (Loc e') as (P' & Q' & H' & O'); [rewrite E; apply in_or_app; right; now right|].
      specialize (Fa e' I'). cbn beta in Fa. rewrite Q' in L'. destruct (list_eq_dec _ (fst (snd e')) loc); [discriminate|contradiction].
    - destruct D as [D|D].
      + destruct (si_kind i) eqn:K; [left|right..].
        1:{ destruct (squash_row_fields e) as (_ & _ & _ & _ & _ & _ & ->). rewrite Ee. cbn [snd]. rewrite K. exact D. }
        all: intros e' rest I' R L'; rewrite <- E in I'; destruct (Loc e' I') as (P' & Q' & H' & O'); rewrite Q' in L'; rewrite L' in H';
          pose proof (node_folder loc root rest i _ H H' Im R); congruence.
      + right. intros e' rest I' R L'. rewrite <- E in I'. destruct (Loc e' I') as (P' & Q' & H' & O'). rewrite Q' in L'. rewrite L' in H'.
        pose proof (node_folder loc root rest i _ H H' Im R). congruence.
  Qed.

  Lemma squash_absent loc index : squash_index (fun p => p) root = Ok index -> Forall proper_name loc -> loc <> [] -> (forall i, ~ node_at root loc i) ->
    lookup now uid gid sh index (written loc) 0 = None.
  Proof.
    intros X P NE H. unfold squash_index in X. destruct (iterate_spec root [] Im) as (l & El & Sl). rewrite El in X. injection X as <-. cbn [app] in Sl.
    apply (member_lookup_none (squash_row (fun p => p)) location_in (fun e => proj1 (squash_row_fields e)) (fun e => proj1 (proj2 (squash_row_fields e))) (fun e => denotes_proper _)); auto.
    intros (o & p & i) rest I L. apply Sl in I as (? & -> & H' & ->). rewrite location_names in L by (now apply (node_proper _ root Im i)). rewrite L in H'.
    destruct (node_parent loc root rest i H') as (j & Hj). now apply (H j).
  Qed.

  Lemma squash_list loc n sh1 index : squash_index (fun p => p) root = Ok index -> any_order sh1 -> Forall proper_name loc -> proper_name n ->
    match index_list sh1 index (written loc) with Some d => dget str_eqb d n | None => None end = lookup now uid gid sh index (written (loc ++ [n])) 0.
  Proof.
    intros X O1 P Pn. unfold squash_index in X. destruct (iterate [] root) as [l|]; [|discriminate]. injection X as <-.
    apply (member_list (squash_row (fun p => p)) location_in (fun e => proj1 (squash_row_fields e)) (fun e => proj1 (proj2 (squash_row_fields e))) (fun e => denotes_proper _)); auto.
  Qed.

  Lemma squash_indexes : exists index, squash_index (fun p => p) root = Ok index.
  Proof. unfold squash_index. destruct (iterate_spec root [] Im) as (l & -> & _). now eexists. Qed.
End Image.
