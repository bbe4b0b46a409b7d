(** Properties C118 and C119: archives one after the other in one file, and the permissions of the folder that stands for an archive.
    The model is Tar_Model.v. *)
From Coq Require Import Ascii String.
From Verif Require Import PyBase PyDict PyStr Path_Model Path_Spec Path_Proofs FileInfo Strip_Model Index_Model Index_Spec Index_Proofs Build_Proofs
  Tar_Model Tar_Spec Tar_Proofs Tar_Props.
Local Open Scope Z_scope.

(** ** Specification *)

(** [several bs l]: the blocks [bs] hold the members [l] (block number of the header, member, data blocks), with any blocks that are no
    headers before, between and behind them.  In particular, archives that were written one after the other, with their zero blocks. *)
Inductive several : list block -> list (nat * member * list block) -> Prop :=
| several_end : several [] []
| several_gap b rest l : (forall m, b <> Head m) -> several rest l -> several (b :: rest) (map (fun '(pos, m', x) => (S pos, m', x)) l)
| several_member m ext body rest l : length ext = m_extra m -> length body = m_blocks m -> several rest l ->
    several (Head m :: ext ++ body ++ rest)
            ((0%nat, m, body) :: map (fun '(pos, m', b) => ((1 + m_extra m + m_blocks m + pos)%nat, m', b)) l).

(** ** Proofs *)

Lemma scan_several bs l : several bs l -> forall pre fuel, (length bs < fuel)%nat ->
  scan true fuel (length pre) (pre ++ bs) = (heads (length pre) l, true).
Proof.
  induction 1 as [|b rest l Nb Hs IH|m ext body rest l Ee Eb Hs IH]; intros pre fuel F; (destruct fuel as [|fuel]; [lia|]).
  - cbn [scan heads map]. rewrite nth_error_app2, Nat.sub_diag by lia. cbn [nth_error]. now rewrite app_nil_r, Nat.leb_refl.
  - cbn [scan]. rewrite nth_error_app2, Nat.sub_diag by lia. cbn [nth_error].
    specialize (IH (pre ++ [b]) fuel). rewrite <- app_assoc, app_length in IH. cbn [app length] in IH. rewrite Nat.add_1_r in IH.
    replace (match b with Head m => _ | _ => scan true fuel (length pre + 1) (pre ++ b :: rest) end) with (scan true fuel (length pre + 1) (pre ++ b :: rest))
      by (destruct b; [reflexivity|exfalso; now apply (Nb m)|reflexivity]).
    rewrite Nat.add_1_r, IH by (cbn [length] in F; lia).
    unfold heads. rewrite map_map. f_equal. apply map_ext. intros [[pos m'] x]. f_equal. lia.
  - cbn [scan]. rewrite nth_error_app2, Nat.sub_diag by lia. cbn [nth_error].
    specialize (IH (pre ++ Head m :: ext ++ body) fuel).
    replace ((pre ++ Head m :: ext ++ body) ++ rest) with (pre ++ Head m :: ext ++ body ++ rest) in IH
      by (cbn [app]; rewrite <- ?app_assoc; cbn [app]; rewrite <- ?app_assoc; reflexivity).
    replace (length (pre ++ Head m :: ext ++ body)) with (length pre + 1 + m_extra m + m_blocks m)%nat in IH
      by (rewrite app_length; cbn [length]; rewrite app_length; lia).
    rewrite IH by (cbn [length] in F; rewrite !app_length in F; lia).
    unfold heads. cbn [map]. rewrite map_map, Nat.add_0_r. do 2 f_equal. apply map_ext. intros [[pos m'] b]. f_equal. lia.
Qed.
Lemma members_several bs l : several bs l -> members true bs = (heads 0 l, true).
Proof. intros H. exact (scan_several bs l H [] (S (length bs)) ltac:(lia)). Qed.

Lemma several_body bs l : several bs l -> forall pos m body, In (pos, m, body) l ->
  (exists pre post, bs = pre ++ body ++ post /\ length pre = (pos + 1 + m_extra m)%nat) /\ nth_error bs pos = Some (Head m).
Proof.
  induction 1 as [|b rest l Nb Hs IH|m ext body rest l Ee Eb Hs IH]; intros pos m' b' I; [destruct I| |].
  - apply in_map_iff in I as ([[pos' m''] x] & E & I). injection E as <- <- <-. destruct (IH _ _ _ I) as ((pre & post & -> & L) & N).
    split; [|exact N]. exists (b :: pre), post. split; [reflexivity|]. cbn [length]. lia.
  - destruct I as [E|I].
    + injection E as <- <- <-. split; [|reflexivity]. exists (Head m :: ext), rest. split; [reflexivity|]. cbn [length]. lia.
    + apply in_map_iff in I as ([[pos' m''] x] & E & I). injection E as <- <- <-. destruct (IH _ _ _ I) as ((pre & post & -> & L) & N). split.
      * exists (Head m :: ext ++ body ++ pre), post. split; [cbn [app]; rewrite <- !app_assoc; reflexivity|]. cbn [length]. rewrite !app_length. lia.
      * cbn [Nat.add]. replace (S (m_extra m + m_blocks m + pos'))%nat with (length (Head m :: ext ++ body) + pos')%nat by (cbn [length]; rewrite app_length; lia).
        replace (Head m :: ext ++ body ++ pre ++ x ++ post) with ((Head m :: ext ++ body) ++ pre ++ x ++ post) by (cbn [app]; rewrite <- app_assoc; reflexivity).
        generalize (Head m :: ext ++ body). intros front. rewrite nth_error_app2 by lia. rewrite <- N. f_equal. lia.
Qed.

(** ** C118 *)

(** With --ignore-zeros every member of every one of the archives in the file is in the index, with its attributes and its data. *)
Theorem C118_all_archives :
  forall (transform : str -> str) (strip : bool) (remount : option (str -> str)) (archive : list block) l, several archive l ->
  forall pos m body, In (pos, m, body) l ->
  exists r, In r (build (index_part transform strip remount true archive 1 0 archive [] 0)) /\ describes transform archive [] (512 * Z.of_nat pos) m body r.
Proof.
  intros transform strip remount archive l Hs pos m body I. set (is := index_part _ _ _ _ _ _ _ _ _ _).
  assert (Hrows : forall x, In x (inserted_rows is) <-> exists p m' b, In (p, m', b) l /\ In x (file_rows transform [] 0 0 p m')).
  { intros x. unfold is. cbn [index_part]. rewrite (members_several archive l Hs). unfold inserted_rows. cbn [flat_map andb negb Nat.eqb].
    rewrite app_nil_r, in_flat_map. split.
    - intros ([p m'] & J & Hx). unfold heads in J. apply in_map_iff in J as ([[p' m''] b] & E & J). injection E as <- <-. exists p', m'', b. auto.
    - intros (p & m' & b & J & Hx). exists (p, m'). split; [|assumption]. unfold heads. apply in_map_iff. exists (p, m', b). auto. }
  assert (Hin : In (file_row transform [] 0 0 pos m) (inserted_rows is)).
  { apply Hrows. exists pos, m, body. split; [assumption|]. unfold file_rows. destruct (char_eqb _ _); now left. }
  destruct (replace_all_covers _ _ Hin) as (r' & Hr' & K). exists r'. split; [now apply build_keeps|].
  assert (r' = file_row transform [] 0 0 pos m) as ->.
  { assert (Hi : In r' (inserted_rows is)) by (apply replace_all_In in Hr' as (p & q & -> & _); apply in_app_iff; right; now left).
    apply Hrows in Hi as (p & m' & b & J & Hx). unfold ukey in K. injection K as _ _ K.
    pose proof (file_row_fields transform [] 0 0 pos m) as (_ & _ & F & _). pose proof (file_row_fields transform [] 0 0 p m') as (_ & _ & F' & _).
    rewrite F in K. unfold file_rows in Hx.
    assert (E : p = pos /\ r' = file_row transform [] 0 0 p m').
    { destruct (char_eqb _ _); [destruct Hx as [<-|[<-|[]]]|destruct Hx as [<-|[]]]; cbn [r_offsetheader] in K; rewrite F' in K; split; try reflexivity; lia. }
    destruct E as [-> ->]. destruct (several_body archive l Hs _ _ _ I) as (_ & N), (several_body archive l Hs _ _ _ J) as (_ & N'). congruence. }
  pose proof (file_row_fields transform [] 0 0 pos m) as (F1 & F2 & F3 & F4 & F5 & F6 & F7 & F8 & F9 & F10 & F11).
  unfold describes. rewrite F1, F3, F4, F5, F6, F8, F9, F10, F11. repeat split; try assumption.
  destruct (several_body archive l Hs _ _ _ I) as ((pre & post & -> & L) & _). apply lies_blocks. exists pre, post. split; [reflexivity|]. lia.
Qed.
Print Assumptions C118_all_archives.

Lemma rows_of_members transform strip remount ig archive l : members ig archive = (heads 0 l, true) ->
  (forall pos m body, In (pos, m, body) l -> exists pre post, archive = pre ++ body ++ post /\ length pre = (pos + 1 + m_extra m)%nat) ->
  forall r, In r (build (index_part transform strip remount ig archive 1 0 archive [] 0)) ->
  let of_member r := (exists pos m body, In (pos, m, body) l /\ describes transform archive [] (512 * Z.of_nat pos) m body r) \/
                     (exists pos m body, In (pos, m, body) l /\ incremental_row [] transform pos m r) in
  of_member r \/ exists below pre n, of_member below /\ generated_for below r pre n.
Proof.
  intros Hm Hs r Hr of_member. set (is := index_part _ _ _ _ _ _ _ _ _ _) in *.
  assert (Hrows : forall x, In x (inserted_rows is) -> exists p m' b, In (p, m', b) l /\ In x (file_rows transform [] 0 0 p m')).
  { intros x. unfold is. cbn [index_part]. rewrite Hm. unfold inserted_rows. cbn [flat_map andb negb Nat.eqb].
    rewrite app_nil_r, in_flat_map. intros ([p m'] & J & Hx). unfold heads in J. apply in_map_iff in J as ([[p' m''] b] & E & J). injection E as <- <-. exists p', m'', b. auto. }
  assert (Hb : forall x, In x (inserted_rows is) -> backend_row x).
  { intros x Hx. destruct (Hrows x Hx) as (pos & m & body & _ & Hi). unfold file_rows in Hi. pose proof (file_row_backend transform [] 0 0 pos m) as B.
    destruct (char_eqb _ _); [destruct Hi as [<-|[<-|[]]]|destruct Hi as [<-|[]]]; exact B. }
  assert (Hof : forall x, In x (inserted_rows is) -> of_member x).
  { intros x Hx. destruct (Hrows x Hx) as (pos & m & body & I & Hi).
    pose proof (file_row_fields transform [] 0 0 pos m) as (F1 & F2 & F3 & F4 & F5 & F6 & F7 & F8 & F9 & F10 & F11).
    assert (D : describes transform archive [] (512 * Z.of_nat pos) m body (file_row transform [] 0 0 pos m)).
    { unfold describes. rewrite F1, F3, F4, F5, F6, F8, F9, F10, F11. repeat split; try assumption.
      destruct (Hs _ _ _ I) as (pre & post & -> & L). apply lies_blocks. exists pre, post. split; [reflexivity|]. lia. }
    unfold file_rows in Hi. destruct (char_eqb_spec (m_type m) "D"%char) as [T|T].
    - destruct Hi as [<-|[<-|[]]]; [left; exists pos, m, body; auto|]. right. exists pos, m, body. split; [exact I|]. unfold incremental_row.
      cbn [r_offsetheader r_size r_mode]. unfold full_path in *. cbn [r_path r_name] in *. rewrite F1, F3. unfold full_name, isdir. rewrite T.
      cbn [char_eqb Ascii.eqb Bool.eqb]. cbn [char_eqb]. rewrite app_nil_r. repeat split; lia.
    - destruct Hi as [<-|[]]. left. exists pos, m, body. auto. }
  destruct (built_rows is Hb) as (B1 & B2 & _). destruct (B2 r Hr) as [L|(below & pre & n & Hbelow & Gf & _)].
  - left. apply Hof. destruct L as (p & q & E & _). rewrite E. apply in_app_iff. right. now left.
  - right. exists below, pre, n. auto.
Qed.

(** And nothing else is: every row is that of a member or the folder of an entry of an incremental archive, or was generated for a folder
    above one of these. *)
Theorem C118_nothing_else :
  forall (transform : str -> str) (strip : bool) (remount : option (str -> str)) (archive : list block) l, several archive l ->
  forall r, In r (build (index_part transform strip remount true archive 1 0 archive [] 0)) ->
  let of_member r := (exists pos m body, In (pos, m, body) l /\ describes transform archive [] (512 * Z.of_nat pos) m body r) \/
                     (exists pos m body, In (pos, m, body) l /\ incremental_row [] transform pos m r) in
  of_member r \/ exists below pre n, of_member below /\ generated_for below r pre n.
Proof.
  intros transform strip remount archive l Hs. apply rows_of_members; [now apply members_several|]. intros pos m body I. now destruct (several_body archive l Hs pos m body I).
Qed.
Print Assumptions C118_nothing_else.

(** Two archives one after the other, each with its two zero blocks. *)
Definition two_tars : list block :=
  [Head (plain $"x" "0" 5 0 1); Other 3; Zero; Zero; Head (plain $"d/y" "0" 600 1 2); Other 0; Other 1; Other 2; Zero; Zero].
Lemma two_layout : several two_tars [(0%nat, plain $"x" "0" 5 0 1, [Other 3]); (4%nat, plain $"d/y" "0" 600 1 2, [Other 1; Other 2])].
Proof.
  apply (several_member (plain $"x" "0" 5 0 1) [] [Other 3] ([Zero; Zero] ++ skipn 4 two_tars) [(2%nat, plain $"d/y" "0" 600 1 2, [Other 1; Other 2])]); try reflexivity.
  apply (several_gap Zero (Zero :: skipn 4 two_tars) [(1%nat, plain $"d/y" "0" 600 1 2, [Other 1; Other 2])]); [discriminate|].
  apply (several_gap Zero (skipn 4 two_tars) [(0%nat, plain $"d/y" "0" 600 1 2, [Other 1; Other 2])]); [discriminate|].
  apply (several_member (plain $"d/y" "0" 600 1 2) [Other 0] [Other 1; Other 2] [Zero; Zero] []); try reflexivity.
  apply (several_gap Zero [Zero] []); [discriminate|]. apply (several_gap Zero [] []); [discriminate|]. constructor.
Qed.

(** [packed bs l]: the blocks hold the members one after the other and nothing else. *)
Inductive packed : list block -> list (nat * member * list block) -> Prop :=
| packed_end : packed [] []
| packed_member m ext body rest l : length ext = m_extra m -> length body = m_blocks m -> packed rest l ->
    packed (Head m :: ext ++ body ++ rest)
           ((0%nat, m, body) :: map (fun '(pos, m', b) => ((1 + m_extra m + m_blocks m + pos)%nat, m', b)) l).
Lemma packed_tarball bs l rest : packed bs l -> tarball (bs ++ Zero :: rest) l.
Proof.
  induction 1 as [|m ext body rs l Ee Eb Hp IH]; [apply tar_end; right; now exists rest|]. cbn [app]. rewrite <- !app_assoc. now apply tar_member.
Qed.
Lemma packed_several bs l rest l' : packed bs l -> several rest l' ->
  several (bs ++ rest) (l ++ map (fun '(pos, m, b) => ((length bs + pos)%nat, m, b)) l').
Proof.
  intros P S. induction P as [|m ext body rs l Ee Eb Hp IH].
  - cbn [app length]. replace (map _ l') with l'; [exact S|]. rewrite <- (map_id l') at 1. apply map_ext. now intros [[p m] b].
  - cbn [app]. rewrite <- !app_assoc. pose proof (several_member m ext body _ _ Ee Eb IH) as H.
    rewrite map_app, map_map in H. eapply eq_rect; [exact H|]. cbn [app]. do 2 f_equal. apply map_ext. intros [[p m'] b]. cbn [length]. rewrite !app_length.
    do 2 f_equal. lia.
Qed.

(** Two archives one after the other, the first one with a zero block at its end.  Without the option exactly the members of the first one
    are in the index; with it, those of both. *)
Theorem C118_two_archives :
  forall (transform : str -> str) (strip : bool) (remount : option (str -> str)) first l1 second l2, packed first l1 -> several second l2 ->
  let archive := first ++ Zero :: second in
  let shifted := map (fun '(pos, m, b) => ((length first + 1 + pos)%nat, m, b)) l2 in
  let has ignore_zeros pos m body := exists r, In r (build (index_part transform strip remount ignore_zeros archive 1 0 archive [] 0)) /\ describes transform archive [] (512 * Z.of_nat pos) m body r in
  (forall pos m body, In (pos, m, body) l1 -> has false pos m body) /\
  (forall r, In r (build (index_part transform strip remount false archive 1 0 archive [] 0)) -> r_offsetheader r < 512 * Z.of_nat (length first)) /\
  (forall pos m body, In (pos, m, body) (l1 ++ shifted) -> has true pos m body).
Proof.
  intros transform strip remount first l1 second l2 P S archive shifted has. pose proof (packed_tarball first l1 second P) as T. fold archive in T. split; [|split].
  - intros pos m body I. apply (C60_every_member_is_found transform strip remount archive 1 [] (512 * Z.of_nat pos) m body).
    replace (512 * Z.of_nat pos) with (0 + 512 * Z.of_nat pos) by lia. now apply (holds_here _ 0 [] 0 archive l1 pos m body).
  - intros r Hr. assert (Lt : forall pos m body, In (pos, m, body) l1 -> (pos < length first)%nat).
    { clear - P. induction P as [|m ext body rs l Ee Eb Hp IH]; intros pos m' b I; [destruct I|]. destruct I as [E|I]; [injection E as <- <- <-; cbn; lia|].
      apply in_map_iff in I as ([[p m''] x] & E & I). injection E as <- <- <-. apply IH in I. cbn [length]. rewrite !app_length. lia. }
    assert (X : forall r, (exists pos m body, In (pos, m, body) l1 /\ describes transform archive [] (512 * Z.of_nat pos) m body r) \/
                     (exists pos m body, In (pos, m, body) l1 /\ incremental_row [] transform pos m r) -> r_offsetheader r < 512 * Z.of_nat (length first)).
    { intros x [(pos & m & body & I & D)|(pos & m & body & I & D)]; destruct D as (_ & _ & D); [destruct D as (D & _)|destruct D as (D & _)]; rewrite D; apply Lt in I; lia. }
    destruct (rows_of_members transform strip remount false archive l1) with (r := r) as [M|(below & pre & n & M & G)].
    + now apply members_tarball.
    + intros pos m body I. now destruct (tarball_body archive l1 T pos m body I).
    + exact Hr.
    + now apply X.
    + destruct G as (_ & _ & _ & _ & _ & _ & _ & _ & _ & -> & _). now apply X.
  - intros pos m body I. apply (C118_all_archives transform strip remount archive (l1 ++ shifted)); [|exact I].
    pose proof (packed_several first l1 (Zero :: second) _ P (several_gap Zero second l2 ltac:(discriminate) S)) as H. rewrite map_map in H.
    unfold shifted. match type of H with several _ (_ ++ ?x) => replace (map (fun '(pos, m, b) => ((length first + 1 + pos)%nat, m, b)) l2) with x; [exact H|] end.
    apply map_ext. intros [[p m'] b]. f_equal. f_equal. lia.
Qed.
Print Assumptions C118_two_archives.
Example C118_case : exists l1 l2, packed [Head (plain $"x" "0" 5 0 1); Other 3] l1 /\ several (skipn 3 two_tars) l2 /\
  map (fun r => full_path r) (build (index_part (fun p => p) false None true two_tars 1 0 two_tars [] 0)) = [$"/x"; $"/d/y"; $"/d"] /\
  map (fun r => full_path r) (build (index_part (fun p => p) false None false two_tars 1 0 two_tars [] 0)) = [$"/x"].
Proof.
  exists [(0%nat, plain $"x" "0" 5 0 1, [Other 3])], [(1%nat, plain $"d/y" "0" 600 1 2, [Other 1; Other 2])]. split; [|split; [|split; reflexivity]].
  - apply (packed_member (plain $"x" "0" 5 0 1) [] [Other 3] [] []); try reflexivity. constructor.
  - apply (several_gap Zero (skipn 4 two_tars) [(0%nat, plain $"d/y" "0" 600 1 2, [Other 1; Other 2])]); [discriminate|].
    apply (several_member (plain $"d/y" "0" 600 1 2) [Other 0] [Other 1; Other 2] [Zero; Zero] []); try reflexivity.
    apply (several_gap Zero [Zero] []); [discriminate|]. apply (several_gap Zero [] []); [discriminate|]. constructor.
Qed.

(** ** C119 *)

(** The folder that stands for an archive may be entered by exactly those who may read the archive or might execute it; reading and writing
    stay as they were, and nothing else but the type of a folder is in the mode.  The classes are 6 (owner), 3 (group) and 0 (others); of
    their bits, 2 is for reading, 1 for writing, and 0 for entering. *)
Theorem C119_folder_permissions :
  forall mode, let folder := folder_mode mode in
  is_dir_mode folder = true /\ folder / 512 = 32 /\
  (forall class, In class [0; 3; 6] ->
     Z.testbit folder (class + 2) = Z.testbit mode (class + 2) /\ Z.testbit folder (class + 1) = Z.testbit mode (class + 1) /\
     Z.testbit folder class = Z.testbit mode class || Z.testbit mode (class + 2)).
Proof.
  intros mode folder.
  assert (B : forall b k, 0 <= k -> (Z.land mode b =? 0) = negb (Z.testbit mode k) -> (if Z.land mode b =? 0 then 0 else 2 ^ (k - 2)) = if Z.testbit mode k then 2 ^ (k - 2) else 0).
  { intros b k _ ->. now destruct (Z.testbit mode k). }
  assert (L : forall k, 0 <= k -> (Z.land mode (2 ^ k) =? 0) = negb (Z.testbit mode k)).
  { intros k K. destruct (Z.eqb_spec (Z.land mode (2 ^ k)) 0) as [E|N].
    - assert (X : Z.testbit (Z.land mode (2 ^ k)) k = false) by (rewrite E; apply Z.bits_0). rewrite Z.land_spec, Z.pow2_bits_true, andb_true_r in X by exact K. now rewrite X.
    - destruct (Z.testbit mode k) eqn:T; [reflexivity|]. exfalso. apply N. apply Z.bits_inj'. intros i Hi. rewrite Z.land_spec, Z.bits_0.
      destruct (Z.eq_dec i k) as [->|D]; [now rewrite T|]. rewrite Z.pow2_bits_false by congruence. apply andb_false_r. }
  set (u := Z.testbit mode 8). set (g := Z.testbit mode 5). set (o := Z.testbit mode 2).
  assert (F : folder = Z.lor (Z.land mode (Z.ones 9)) (Z.lor 16384 (Z.lor (if u then 64 else 0) (Z.lor (if g then 8 else 0) (if o then 1 else 0))))).
  { unfold folder, folder_mode. change 511 with (Z.ones 9). change S_IFDIR with 16384. rewrite <- !Z.lor_assoc. do 2 f_equal.
    pose proof (L 8 ltac:(lia)) as L8. pose proof (L 5 ltac:(lia)) as L5. pose proof (L 2 ltac:(lia)) as L2. change (2 ^ 8) with 256 in L8. change (2 ^ 5) with 32 in L5. change (2 ^ 2) with 4 in L2.
    rewrite L8, L5, L2. fold u g o. destruct u, g, o; reflexivity. }
  split; [|split].
  - unfold is_dir_mode. rewrite F, Z.land_lor_distr_l, <- Z.land_assoc. change (Z.land (Z.ones 9) S_IFMT) with 0. rewrite Z.land_0_r, Z.lor_0_l. destruct u, g, o; reflexivity.
  - change 512 with (2 ^ 9). rewrite <- Z.shiftr_div_pow2 by lia. rewrite F, Z.shiftr_lor, Z.shiftr_land. change (Z.shiftr (Z.ones 9) 9) with 0. rewrite Z.land_0_r, Z.lor_0_l. destruct u, g, o; reflexivity.
  - intros class I. rewrite F. assert (T : forall k, 0 <= k < 9 -> Z.testbit (Z.land mode (Z.ones 9)) k = Z.testbit mode k).
    { intros k K. rewrite Z.land_spec, Z.ones_spec_low by lia. apply andb_true_r. }
    destruct I as [<-|[<-|[<-|[]]]]; cbn [Z.add Pos.add Pos.succ]; rewrite !(Z.lor_spec (Z.land mode (Z.ones 9))), !T by lia;
      [change (Z.testbit mode 2) with o|change (Z.testbit mode 5) with g|change (Z.testbit mode 8) with u];
      (split; [|split]); destruct u, g, o; cbn [Z.lor Z.testbit Pos.lor Pos.testbit Pos.pred_N]; rewrite ?orb_false_r, ?orb_true_r; reflexivity.
Qed.
Print Assumptions C119_folder_permissions.
Example C119_case : folder_mode 33188 = 16877 /\ folder_mode 33152 = 16832.
Proof. split; reflexivity. Qed.
