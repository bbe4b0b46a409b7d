From Verif Require Import PyBase Fat_Model Fat_Spec Fat_Proofs FatDir_Model FatDir_Spec.
From Coq Require Import Sorted.
Local Open Scope Z_scope.

Lemma below_all (P : Z -> bool) (n : nat) : forallb (fun k => P (Z.of_nat k)) (seq 0 n) = true -> forall x, 0 <= x < Z.of_nat n -> P x = true.
Proof. intros H x X. rewrite forallb_forall in H. specialize (H (Z.to_nat x)). rewrite Z2Nat.id in H by lia. apply H. apply in_seq. lia. Qed.

(** ** Single slots *)
Ltac explode l := repeat (destruct l as [|? l]; [discriminate|]); destruct l; [|discriminate].
Lemma le1 x : le [x] = x.
Proof. cbn [le]. lia. Qed.
Lemma le_bytes16 x : 0 <= x < 65536 -> le (bytes16 x) = x.
Proof.
  intros X. unfold bytes16. cbn [le]. rewrite Z.mul_0_r, Z.add_0_r. rewrite (Z.mod_small (x / 256)); [|split; [apply Z.div_pos; lia|apply Z.div_lt_upper_bound; lia]].
  pose proof (Z.div_mod x 256 ltac:(lia)). lia.
Qed.
Lemma le_app a b : le (a ++ b) = le a + 256 ^ len a * le b.
Proof.
  induction a as [|x a IH]; [cbn [app le]; change (256 ^ len []) with 1; lia|]. cbn [app le]. rewrite IH, len_cons. pose proof (len_nonneg a). rewrite Z.pow_add_r by lia. lia.
Qed.
Lemma le_bytes32 x : 0 <= x < 4294967296 -> le (bytes32 x) = x.
Proof.
  intros X. unfold bytes32. rewrite le_app. pose proof (Z.mod_pos_bound x 65536 ltac:(lia)). pose proof (Z.div_mod x 65536 ltac:(lia)).
  assert (0 <= x / 65536 < 65536) by (split; [apply Z.div_pos; lia|apply Z.div_lt_upper_bound; lia]). rewrite !le_bytes16 by lia. change (256 ^ len (bytes16 (x mod 65536))) with 65536. lia.
Qed.

Lemma part_slot_len sum ord p : length p = 13%nat -> len (part_slot sum ord p) = 32.
Proof. intros L. explode p. reflexivity. Qed.
Lemma part_slot_lfn sum ord p : length p = 13%nat -> lfn_of_slot (part_slot sum ord p) = mkLfn ord 15 sum 0 (unit_bytes p).
Proof.
  intros L. explode p. match goal with |- _ = mkLfn _ _ _ _ ?n => transitivity (mkLfn (le [ord]) 15 (le [sum]) 0 n) end; [reflexivity|now rewrite !le1].
Qed.
Lemma parse_part sum ord p tmp : length p = 13%nat -> 0 < ord < 229 ->
  parse_slot (part_slot sum ord p) tmp = match add_lfn_entry tmp (mkLfn ord 15 sum 0 (unit_bytes p)) with Err e => Err e | Ok tmp => Ok (Continue tmp) end.
Proof.
  intros L O. unfold parse_slot. rewrite part_slot_len, part_slot_lfn by exact L. cbn [Z.eqb Pos.eqb negb].
  assert (F0 : field (part_slot sum ord p) 0 1 = ord) by (transitivity (le [ord]); [reflexivity|apply le1]).
  assert (F11 : field (part_slot sum ord p) 11 1 = 15) by (clear - L; explode p; reflexivity).
  rewrite F0, F11. destruct (Z.eqb_spec ord 229); [lia|]. destruct (Z.eqb_spec ord 0); [lia|].
  assert (Li : is_lfn_entry ord 15 = true) by (unfold is_lfn_entry; destruct (Z.eqb_spec ord 229); [lia|reflexivity]). now rewrite Li.
Qed.

Lemma short_field_len e : valid_entry e -> length (short_field e) = 11%nat.
Proof.
  intros (B & X & _). unfold short_field. assert (L : length (e_base e ++ repeat 32 (8 - length (e_base e)) ++ e_ext e ++ repeat 32 (3 - length (e_ext e))) = 11%nat).
  { rewrite !app_length, !repeat_length. lia. }
  destruct (e_base e ++ _) as [|b r]; [discriminate|exact L].
Qed.
Lemma short_field_first e : valid_entry e -> exists b r, short_field e = b :: r /\ b <> 0 /\ b <> 229.
Proof.
  intros (B & X & Bb & _ & H0 & H5 & _). unfold short_field. destruct (e_base e) as [|b r] eqn:E; [cbn in B; lia|]. cbn [app hd] in *. eexists _, _. split; [reflexivity|].
  destruct (Z.eqb_spec b 229); lia.
Qed.
Lemma entry_slot_len e : valid_entry e -> len (entry_slot e) = 32.
Proof.
  intros V. pose proof (short_field_len e V) as L. destruct V as (_ & _ & _ & _ & _ & _ & _ & _ & Lo & _). unfold entry_slot, len. rewrite !app_length, L, Lo. reflexivity.
Qed.

Definition entry_dentry (e : entry) (lfn : option (list lfn_part)) : dentry :=
  mkDentry (short_field e) (e_attr e) (e_cluster e / 65536) (e_time e) (e_date e) (e_cluster e mod 65536) (e_size e) lfn.
Lemma parse_entry e tmp : valid_entry e ->
  parse_slot (entry_slot e) tmp = Ok (Got (entry_dentry e (accept_lfn (short_field e) (if is_complete tmp then Some tmp else None)))).
Proof.
  intros V. unfold parse_slot. rewrite entry_slot_len by exact V. cbn [Z.eqb Pos.eqb negb]. pose proof (short_field_len e V) as L. destruct (short_field_first e V) as (b & r & Eb & N0 & N229).
  pose proof V as (_ & _ & _ & _ & _ & _ & Ba & A15 & Lo & _ & Ti & Da & Cl & Si & _).
  assert (C1 : 0 <= e_cluster e / 65536 < 65536) by (split; [apply Z.div_pos; lia|apply Z.div_lt_upper_bound; lia]). pose proof (Z.mod_pos_bound (e_cluster e) 65536 ltac:(lia)) as C2.
  unfold entry_slot. generalize dependent (e_other e). intros other Lo. rewrite Eb in L |- *.
  assert (F0 : field ((b :: r) ++ [e_attr e] ++ other ++ bytes16 (e_cluster e / 65536) ++ bytes16 (e_time e) ++ bytes16 (e_date e) ++ bytes16 (e_cluster e mod 65536) ++ bytes32 (e_size e)) 0 1 = b).
  { transitivity (le [b]); [reflexivity|apply le1]. }
  rewrite F0. destruct (Z.eqb_spec b 229); [congruence|]. destruct (Z.eqb_spec b 0); [congruence|].
  cbn [length] in L. injection L as L. explode r. explode other.
  match goal with |- context [field ?s 11 1] => assert (F11 : field s 11 1 = e_attr e) by (transitivity (le [e_attr e]); [reflexivity|apply le1]) end. rewrite F11.
  assert (Nl : is_lfn_entry b (e_attr e) = false).
  { unfold is_lfn_entry. change 63 with (Z.ones 6). rewrite Z.land_ones by lia. change (2 ^ 6) with 64. destruct (Z.eqb_spec (e_attr e mod 64) 15); [congruence|reflexivity]. }
  rewrite Nl. unfold entry_dentry. rewrite Eb.
  match goal with |- _ = Ok (Got (mkDentry ?n ?a _ _ _ _ _ ?l)) =>
    transitivity (Ok (Got (mkDentry n a (le (bytes16 (e_cluster e / 65536))) (le (bytes16 (e_time e))) (le (bytes16 (e_date e))) (le (bytes16 (e_cluster e mod 65536))) (le (bytes32 (e_size e))) l))) end;
  [reflexivity|]. now rewrite !le_bytes16, le_bytes32 by assumption.
Qed.

(** ** Long names *)
Fixpoint stored (sum i : Z) (parts : list (list Z)) : list lfn_part :=
  match parts with
  | [] => []
  | [p] => [mkLfn (i + 64) 15 sum 0 (unit_bytes p)]
  | p :: r => stored sum (i + 1) r ++ [mkLfn i 15 sum 0 (unit_bytes p)]
  end.
Lemma stored_ords sum : forall parts i q, In q (stored sum i parts) -> i <= l_ord q.
Proof.
  induction parts as [|p r IH]; intros i q; [intros []|]. destruct r as [|p' r].
  - intros [<-|[]]. cbn. lia.
  - change (stored sum i (p :: p' :: r)) with (stored sum (i + 1) (p' :: r) ++ [mkLfn i 15 sum 0 (unit_bytes p)]). intros H. apply in_app_iff in H as [H|[<-|[]]]; [specialize (IH _ _ H); lia|cbn; lia].
Qed.
Lemma parse_parts sum : forall parts i rest acc, Forall (fun p => length p = 13%nat) parts -> 1 <= i -> i + Z.of_nat (length parts) <= 100 ->
  parse_slots (part_slots sum i parts ++ rest) [] acc = parse_slots rest (stored sum i parts) acc.
Proof.
  induction parts as [|p r IH]; intros i rest acc F I1 I2; [reflexivity|]. apply Forall_cons_iff in F as (Lp & F). destruct r as [|p' r].
  - cbn [part_slots app parse_slots stored]. cbn [length] in I2. rewrite parse_part by (try exact Lp; lia). unfold add_lfn_entry. cbn [l_ord l_attr l_cluster existsb].
    assert (Li : is_lfn_entry (i + 64) 15 = true) by (unfold is_lfn_entry; destruct (Z.eqb_spec (i + 64) 229); [lia|reflexivity]). now rewrite Li.
  - change (part_slots sum i (p :: p' :: r)) with (part_slots sum (i + 1) (p' :: r) ++ [part_slot sum i p]).
    change (stored sum i (p :: p' :: r)) with (stored sum (i + 1) (p' :: r) ++ [mkLfn i 15 sum 0 (unit_bytes p)]).
    rewrite <- app_assoc. cbn [length] in I2. rewrite IH by (try exact F; cbn [length]; lia). cbn [app parse_slots].
    rewrite parse_part by (try exact Lp; lia). unfold add_lfn_entry. cbn [l_ord l_attr l_cluster].
    assert (Li : is_lfn_entry i 15 = true) by (unfold is_lfn_entry; destruct (Z.eqb_spec i 229); [lia|reflexivity]). rewrite Li. cbn [negb Z.eqb].
    assert (Ne : existsb (fun q => l_ord q =? i) (stored sum (i + 1) (p' :: r)) = false).
    { apply not_true_iff_false. intros H. apply existsb_exists in H as (q & H1 & H2). apply stored_ords in H1. lia. }
    now rewrite Ne.
Qed.
Lemma stored_complete sum : forall parts i, parts <> [] -> 0 <= i -> i + Z.of_nat (length parts) <= 64 -> is_complete (stored sum i parts) = true.
Proof.
  induction parts as [|p r IH]; intros i N I1 I2; [congruence|]. destruct r as [|p' r].
  - cbn [stored is_complete existsb l_ord]. cbn [length] in I2. assert (H : (Z.land (i + 64) 64 =? 64) = true).
    { apply (below_all (fun x => Z.land (x + 64) 64 =? 64) 64); [reflexivity|]. change (Z.of_nat 64) with 64. lia. }
    unfold is_complete. cbn [existsb l_ord]. now rewrite H.
  - change (stored sum i (p :: p' :: r)) with (stored sum (i + 1) (p' :: r) ++ [mkLfn i 15 sum 0 (unit_bytes p)]). unfold is_complete. rewrite existsb_app.
    cbn [length] in I2. fold (is_complete (stored sum (i + 1) (p' :: r))). rewrite IH by (try discriminate; cbn [length]; lia). reflexivity.
Qed.
Lemma stored_sums sum : forall parts i, forallb (fun p => l_chksum p =? sum) (stored sum i parts) = true.
Proof.
  induction parts as [|p r IH]; intros i; [reflexivity|]. destruct r as [|p' r].
  - cbn [stored forallb l_chksum]. now rewrite Z.eqb_refl.
  - change (stored sum i (p :: p' :: r)) with (stored sum (i + 1) (p' :: r) ++ [mkLfn i 15 sum 0 (unit_bytes p)]). rewrite forallb_app, IH. cbn [forallb l_chksum]. now rewrite Z.eqb_refl.
Qed.
Definition later (a b : lfn_part) : Prop := l_ord b < l_ord a.
Lemma sorted_snoc l x : StronglySorted later l -> Forall (fun y => later y x) l -> StronglySorted later (l ++ [x]).
Proof.
  induction 1 as [|y l S IH F]; intros H; [repeat constructor|]. apply Forall_cons_iff in H as (H1 & H2). cbn [app]. constructor; [now apply IH|].
  apply Forall_app. split; [exact F|]. now repeat constructor.
Qed.
Lemma stored_sorted sum : forall parts i, StronglySorted later (stored sum i parts).
Proof.
  induction parts as [|p r IH]; intros i; [constructor|]. destruct r as [|p' r]; [repeat constructor|].
  change (stored sum i (p :: p' :: r)) with (stored sum (i + 1) (p' :: r) ++ [mkLfn i 15 sum 0 (unit_bytes p)]). apply sorted_snoc; [apply IH|].
  apply Forall_forall. intros q Hq. apply stored_ords in Hq. unfold later. cbn. lia.
Qed.
Lemma insert_last p : forall l, Forall (later p) l -> insert_part p l = l ++ [p].
Proof.
  induction 1 as [|q l H _ IH]; [reflexivity|]. cbn [insert_part app]. unfold later in H. destruct (Z.leb_spec (l_ord p) (l_ord q)); [lia|]. now rewrite IH.
Qed.
Lemma sorted_rev l : StronglySorted later l -> sorted_parts l = rev l.
Proof.
  induction 1 as [|p l S IH F]; [reflexivity|]. change (sorted_parts (p :: l)) with (insert_part p (sorted_parts l)). rewrite IH. cbn [rev]. apply insert_last.
  apply Forall_forall. intros q Hq. apply in_rev in Hq. rewrite Forall_forall in F. now apply F.
Qed.
Lemma unit_bytes_app a b : unit_bytes (a ++ b) = unit_bytes a ++ unit_bytes b.
Proof. unfold unit_bytes. now rewrite map_app, concat_app. Qed.
Lemma stored_names sum : forall parts i, concat (map l_name (rev (stored sum i parts))) = unit_bytes (concat parts).
Proof.
  induction parts as [|p r IH]; intros i; [reflexivity|]. destruct r as [|p' r].
  - cbn [stored rev app map concat l_name]. now rewrite !app_nil_r.
  - change (stored sum i (p :: p' :: r)) with (stored sum (i + 1) (p' :: r) ++ [mkLfn i 15 sum 0 (unit_bytes p)]). rewrite rev_unit. cbn [map concat l_name]. rewrite IH. cbn [concat]. now rewrite !unit_bytes_app.
Qed.

(** *** UTF-16 *)
Lemma bytes16_unit u : 0 <= u < 65536 -> exists a b, bytes16 u = [a; b] /\ a + 256 * b = u.
Proof. intros U. eexists _, _. split; [reflexivity|]. pose proof (le_bytes16 u U) as H. unfold bytes16 in H. cbn [le] in H. lia. Qed.
Lemma decode_chars : forall name rest, Forall is_char name -> decode_utf16 (unit_bytes (utf16 name) ++ rest) = match decode_utf16 rest with Ok l => Ok (name ++ l) | Err e => Err e end.
Proof.
  induction name as [|c name IH]; intros rest F; [cbn; now destruct (decode_utf16 rest)|]. apply Forall_cons_iff in F as (C & F). unfold utf16. cbn [map concat]. fold (utf16 name).
  rewrite unit_bytes_app, <- app_assoc. unfold is_char in C. destruct (Z.ltb_spec c 65536) as [L|L].
  - unfold unit_bytes at 1. cbn [map concat]. rewrite app_nil_r. destruct (bytes16_unit c ltac:(lia)) as (a & b & -> & E). cbn [app decode_utf16]. rewrite E.
    destruct (Z.leb_spec 55296 c), (Z.leb_spec c 56319); cbn [andb]; try lia; destruct (Z.leb_spec 56320 c), (Z.leb_spec c 57343); cbn [andb]; try lia; rewrite IH by exact F; now destruct (decode_utf16 rest).
  - pose proof (Z.div_mod (c - 65536) 1024 ltac:(lia)) as DM. pose proof (Z.mod_pos_bound (c - 65536) 1024 ltac:(lia)) as MB. set (h := (c - 65536) / 1024) in *. set (l := (c - 65536) mod 1024) in *.
    assert (Hh : 0 <= h < 1024) by lia. unfold unit_bytes at 1. cbn [map concat]. rewrite app_nil_r.
    destruct (bytes16_unit (55296 + h) ltac:(lia)) as (a & b & -> & E). destruct (bytes16_unit (56320 + l) ltac:(lia)) as (a' & b' & -> & E'). cbn [app decode_utf16]. rewrite E, E'.
    destruct (Z.leb_spec 55296 (55296 + h)); [|lia]. destruct (Z.leb_spec (55296 + h) 56319); [|lia]. cbn [andb].
    destruct (Z.leb_spec 56320 (56320 + l)); [|lia]. destruct (Z.leb_spec (56320 + l) 57343); [|lia]. cbn [andb]. rewrite IH by exact F.
    destruct (decode_utf16 rest); [|reflexivity]. cbn [app]. do 2 f_equal. lia.
Qed.
Lemma unit_bytes_snoc u x : unit_bytes (u ++ [x]) = unit_bytes u ++ [x mod 256; x / 256 mod 256].
Proof. now rewrite unit_bytes_app. Qed.
Lemma pad_keeps u x : 0 <= x < 65535 -> drop_pad (rev (unit_bytes (u ++ [x]))) = rev (unit_bytes (u ++ [x])).
Proof.
  intros X. rewrite unit_bytes_snoc, rev_app_distr. cbn [rev app drop_pad]. destruct (Z.eqb_spec (x / 256 mod 256) 255) as [E1|E1], (Z.eqb_spec (x mod 256) 255) as [E2|E2]; cbn [andb]; try reflexivity.
  exfalso. rewrite Z.mod_small in E1 by (split; [apply Z.div_pos; lia|apply Z.div_lt_upper_bound; lia]). pose proof (Z.div_mod x 256 ltac:(lia)). lia.
Qed.
Lemma pad_drops u : forall k, drop_pad (rev (unit_bytes (u ++ repeat 65535 k))) = drop_pad (rev (unit_bytes u)).
Proof.
  induction k as [|k IH]; [cbn [repeat]; now rewrite app_nil_r|]. replace (repeat 65535 (S k)) with (repeat 65535 k ++ [65535]) by (symmetry; apply repeat_cons).
  rewrite app_assoc, unit_bytes_snoc, rev_app_distr. exact IH.
Qed.
Lemma utf16_last name : name <> [] -> Forall is_char name -> exists u x, utf16 name = u ++ [x] /\ 0 <= x < 65535.
Proof.
  intros N F. destruct (exists_last N) as (l & c & ->). apply Forall_app in F as (_ & C). apply Forall_inv in C. unfold is_char in C.
  assert (E : utf16 (l ++ [c]) = utf16 l ++ utf16 [c]) by (unfold utf16; now rewrite map_app, concat_app). rewrite E. unfold utf16 at 2. cbn [map concat]. rewrite app_nil_r.
  destruct (Z.ltb_spec c 65536) as [L|L]; [exists (utf16 l), c; split; [reflexivity|lia]|].
  exists (utf16 l ++ [55296 + (c - 65536) / 1024]), (56320 + (c - 65536) mod 1024). rewrite <- app_assoc. split; [reflexivity|]. pose proof (Z.mod_pos_bound (c - 65536) 1024). lia.
Qed.
Lemma name_of_parts name parts sum i : in_parts name parts -> parts_name (stored sum i parts) = Ok name.
Proof.
  intros (N & F & _ & _ & H). unfold parts_name. rewrite sorted_rev by apply stored_sorted. rewrite stored_names. destruct (utf16_last name N F) as (u & x & Eu & X).
  destruct H as [->|(k & ->)].
  - rewrite Eu, pad_keeps by exact X. rewrite rev_involutive, <- Eu. pose proof (decode_chars name [] F) as D. rewrite app_nil_r in D. rewrite D. cbn [decode_utf16]. rewrite app_nil_r.
    destruct (exists_last N) as (l & c & ->). rewrite rev_unit. apply Forall_app in F as (_ & C). apply Forall_inv in C. unfold is_char in C. destruct c; [lia|reflexivity|reflexivity].
  - change (0 :: repeat 65535 k) with ([0] ++ repeat 65535 k). rewrite app_assoc, pad_drops, pad_keeps by lia. rewrite rev_involutive, unit_bytes_app, decode_chars by exact F.
    cbn [unit_bytes map concat bytes16 app decode_utf16]. change (0 mod 256) with 0. change (0 / 256 mod 256) with 0. cbn. rewrite rev_unit. now rewrite rev_involutive.
Qed.

(** ** Short names *)
Lemma firstn_exact {X} n (a b : list X) : length a = n -> firstn n (a ++ b) = a.
Proof. intros <-. rewrite firstn_app, Nat.sub_diag, firstn_O, app_nil_r. apply firstn_all. Qed.
Lemma skipn_exact {X} n (a b : list X) : length a = n -> skipn n (a ++ b) = b.
Proof. intros <-. rewrite skipn_app, Nat.sub_diag, skipn_all. reflexivity. Qed.
Lemma checksum_sum name : are_bytes name -> checksum name = name_sum name.
Proof.
  intros B. unfold checksum, name_sum. assert (G : forall l s, Forall (fun b => 0 <= b < 256) l -> 0 <= s < 256 ->
    fold_left (fun c b => Z.land (Z.lor (Z.shiftr c 1) (Z.shiftl (Z.land c 1) 7) + b) 255) l s = fold_left (fun s b => ((s mod 2) * 128 + s / 2 + b) mod 256) l s).
  { induction l as [|b l IH]; intros s F S; [reflexivity|]. apply Forall_cons_iff in F as (Hb & F). cbn [fold_left].
    assert (E : Z.lor (Z.shiftr s 1) (Z.shiftl (Z.land s 1) 7) = (s mod 2) * 128 + s / 2).
    { apply Z.eqb_eq. apply (below_all (fun s => Z.lor (Z.shiftr s 1) (Z.shiftl (Z.land s 1) 7) =? (s mod 2) * 128 + s / 2) 256); [reflexivity|]. change (Z.of_nat 256) with 256. exact S. }
    rewrite E. change 255 with (Z.ones 8). rewrite Z.land_ones by lia. change (2 ^ 8) with 256. apply IH; [exact F|]. apply Z.mod_pos_bound. lia. }
  apply G; [exact B|lia].
Qed.
Lemma short_field_bytes e : valid_entry e -> are_bytes (short_field e).
Proof.
  intros (B & X & Bb & Bx & _). unfold short_field. assert (F : are_bytes (e_base e ++ repeat 32 (8 - length (e_base e)) ++ e_ext e ++ repeat 32 (3 - length (e_ext e)))).
  { assert (R : forall k, are_bytes (repeat 32 k)) by (intros k; apply Forall_forall; intros x I; apply repeat_spec in I; lia). repeat (apply Forall_app; split); auto; apply R. }
  destruct (e_base e ++ _) as [|b r]; [exact F|]. apply Forall_cons_iff in F as (Hb & F). constructor; [destruct (b =? 229); lia|exact F].
Qed.

Section Names.
  Variable oem : Z -> Z.
  Variable is_space : Z -> bool.
  Hypothesis Blank : is_space (oem 32) = true.
  Lemma rstrip_pad l k : (forall m b, l = m ++ [b] -> is_space (oem b) = false) -> rstrip is_space (map oem (l ++ repeat 32 k)) = map oem l.
  Proof.
    intros H. unfold rstrip. rewrite map_app, rev_app_distr.
    assert (D : drop_space is_space (rev (map oem (repeat 32 k)) ++ rev (map oem l)) = drop_space is_space (rev (map oem l))).
    { induction k as [|k IH]; [reflexivity|]. replace (repeat 32 (S k)) with (repeat 32 k ++ [32]) by (symmetry; apply repeat_cons). rewrite map_app, rev_app_distr. cbn [map rev app drop_space]. now rewrite Blank. }
    rewrite D. destruct (list_eq_dec Z.eq_dec l []) as [->|N]; [reflexivity|]. destruct (exists_last N) as (m & b & ->). specialize (H m b eq_refl).
    rewrite map_app. cbn [map]. rewrite rev_unit. cbn [drop_space]. rewrite H. cbn [rev]. now rewrite rev_involutive.
  Qed.
  Lemma short_name_of e lfn : valid_entry e -> no_blank_end oem is_space e -> short_name oem is_space (entry_dentry e lfn) = seen_short oem e.
  Proof.
    intros V (NB & NX). unfold short_name. cbn [entry_dentry d_name].
    set (padded := e_base e ++ repeat 32 (8 - length (e_base e)) ++ e_ext e ++ repeat 32 (3 - length (e_ext e))).
    assert (R : (match short_field e with b :: r => (if b =? 5 then 229 else b) :: r | [] => [] end) = padded).
    { unfold short_field. fold padded. destruct V as (B & _ & _ & _ & _ & H5 & _). unfold padded. destruct (e_base e) as [|b r]; [cbn in B; lia|]. cbn [app hd] in *.
      destruct (Z.eqb_spec b 229) as [->|N]; [reflexivity|]. destruct (Z.eqb_spec b 5); [congruence|reflexivity]. }
    rewrite R. destruct V as (B & X & _).
    assert (L8 : length (e_base e ++ repeat 32 (8 - length (e_base e))) = 8%nat) by (rewrite app_length, repeat_length; lia).
    assert (L3 : length (e_ext e ++ repeat 32 (3 - length (e_ext e))) = 3%nat) by (rewrite app_length, repeat_length; lia).
    assert (Z1 : zslice padded 0 8 = e_base e ++ repeat 32 (8 - length (e_base e))).
    { unfold padded. rewrite app_assoc. unfold zslice, ztake, zskip. change (Z.to_nat 0) with 0%nat. change (Z.to_nat 8) with 8%nat. cbn [skipn]. now apply firstn_exact. }
    assert (Z2 : zslice padded 8 3 = e_ext e ++ repeat 32 (3 - length (e_ext e))).
    { unfold padded. rewrite app_assoc. unfold zslice, ztake, zskip. change (Z.to_nat 3) with 3%nat. change (Z.to_nat 8) with 8%nat. rewrite skipn_exact by exact L8. rewrite <- (app_nil_r (e_ext e ++ _)) at 1. now apply firstn_exact. }
    rewrite Z1, Z2, !rstrip_pad by assumption. unfold seen_short. destruct (e_ext e) as [|x r]; [reflexivity|]. assert (P : (0 <? len (map oem (x :: r))) = true) by (cbn [map]; rewrite len_cons; pose proof (len_nonneg (map oem r)); lia).
    now rewrite P.
  Qed.
End Names.

(** ** Directories *)
Definition lfn_of (e : entry) : option (list lfn_part) := match e_parts e with [] => None | ps => Some (stored (name_sum (short_field e)) 1 ps) end.
Lemma parse_items : forall items rest acc, Forall valid_item items ->
  parse_slots (concat (map item_slots items) ++ rest) [] acc = parse_slots rest [] (acc ++ map (fun e => entry_dentry e (lfn_of e)) (present items)).
Proof.
  induction items as [|i items IH]; intros rest acc F; [cbn [map concat app present]; now rewrite app_nil_r|]. apply Forall_cons_iff in F as (V & F). cbn [map concat]. rewrite <- app_assoc. destruct i as [r|e].
  - cbn [item_slots app parse_slots]. cbn in V. unfold parse_slot. assert (L : len (229 :: r) = 32) by (unfold len; cbn [length]; lia). rewrite L. cbn [Z.eqb Pos.eqb negb].
    assert (F0 : field (229 :: r) 0 1 = 229) by reflexivity. rewrite F0, Z.eqb_refl. now apply IH.
  - cbn [item_slots]. unfold entry_slots. rewrite <- app_assoc. pose proof V as V0. cbn in V. destruct V as (_ & _ & _ & _ & _ & _ & _ & _ & _ & _ & _ & _ & _ & _ & P).
    assert (FP : Forall (fun p => length p = 13%nat) (e_parts e) /\ (length (e_parts e) < 64)%nat) by (destruct P as [->|(name & _ & _ & P1 & P2 & _)]; [split; [constructor|cbn; lia]|now split]).
    rewrite parse_parts by (try apply FP; lia). cbn [app parse_slots]. rewrite parse_entry by exact V0.
    assert (A : accept_lfn (short_field e) (if is_complete (stored (name_sum (short_field e)) 1 (e_parts e)) then Some (stored (name_sum (short_field e)) 1 (e_parts e)) else None) = lfn_of e).
    { unfold lfn_of. destruct (e_parts e) as [|p ps] eqn:Ep; [reflexivity|]. rewrite stored_complete; [|discriminate|lia|lia]. unfold accept_lfn. rewrite checksum_sum by now apply short_field_bytes.
      now rewrite stored_sums. }
    rewrite A. rewrite IH by exact F. change (present (Present e :: items)) with (e :: present items). cbn [map]. now rewrite <- app_assoc.
Qed.

(** *** Clusters *)
Lemma parse_slots_acc : forall s tmp acc, parse_slots s tmp acc = match parse_slots s tmp [] with Ok (es, t) => Ok (acc ++ es, t) | Err e => Err e end.
Proof.
  induction s as [|x s IH]; intros tmp acc; [cbn; now rewrite app_nil_r|]. cbn [parse_slots]. destruct (parse_slot x tmp) as [[tmp'| |d]|e]; [apply IH|now rewrite app_nil_r| |reflexivity].
  rewrite IH, (IH [] ([] ++ [d])). destruct (parse_slots s [] []) as [(es, t)|e]; [now rewrite <- app_assoc|reflexivity].
Qed.
Fixpoint run_groups (groups : list (list (list Z))) (tmp : list lfn_part) (acc : list dentry) : res (list dentry) :=
  match groups with
  | [] => Ok acc
  | g :: groups => match parse_slots g tmp acc with Err e => Err e | Ok (acc, tmp) => run_groups groups tmp acc end
  end.
Definition passes (s : list (list Z)) tmp acc tmp' acc' : Prop := forall rest, parse_slots (s ++ rest) tmp acc = parse_slots rest tmp' acc'.
Lemma passes_split : forall g s tmp acc tmp' acc', passes (g ++ s) tmp acc tmp' acc' -> exists tmp1 acc1, parse_slots g tmp acc = Ok (acc1, tmp1) /\ passes s tmp1 acc1 tmp' acc'.
Proof.
  induction g as [|x g IH]; intros s tmp acc tmp' acc' P; [exists tmp, acc; now split|]. unfold passes in P. cbn [app parse_slots] in *. destruct (parse_slot x tmp) as [[t| |d]|e].
  - now apply IH.
  - exfalso. specialize (P [[]]). cbn in P. discriminate.
  - now apply IH.
  - exfalso. specialize (P []). cbn in P. discriminate.
Qed.
Definition stops (x : list Z) : Prop := forall tmp, parse_slot x tmp = Ok Stop.
Lemma zero_stops r : length (0 :: r) = 32%nat -> stops (0 :: r).
Proof.
  intros L tmp. unfold parse_slot. assert (H : len (0 :: r) = 32) by (unfold len; lia). rewrite H. cbn [Z.eqb Pos.eqb negb].
  assert (F0 : field (0 :: r) 0 1 = 0) by reflexivity. rewrite F0. reflexivity.
Qed.
Lemma groups_stop m : (0 < m)%nat -> forall groups tmp acc, Forall (fun g => length g = m) groups -> Forall stops (concat groups) -> run_groups groups tmp acc = Ok acc.
Proof.
  intros M. induction groups as [|g groups IH]; intros tmp acc F S; [reflexivity|]. apply Forall_cons_iff in F as (L & F). cbn [concat] in S. apply Forall_app in S as (S1 & S). cbn [run_groups].
  destruct g as [|x g]; [cbn in L; lia|]. apply Forall_inv in S1. cbn [parse_slots]. rewrite S1. now apply IH.
Qed.
Lemma groups_pass m : (0 < m)%nat -> forall groups s r tmp acc acc', Forall (fun g => length g = m) groups -> concat groups = s ++ r -> passes s tmp acc [] acc' ->
  (r = [] \/ (exists x r', r = x :: r' /\ stops x) /\ ((length r <= m)%nat \/ Forall stops r)) -> run_groups groups tmp acc = Ok acc'.
Proof.
  intros M. induction groups as [|g groups IH]; intros s r tmp acc acc' F E P R.
  - cbn [concat] in E. symmetry in E. apply app_eq_nil in E as (-> & ->). specialize (P []). cbn in P. injection P as -> _. reflexivity.
  - apply Forall_cons_iff in F as (L & F). cbn [concat] in E. cbn [run_groups]. destruct (Nat.le_gt_cases m (length s)) as [X|X].
    + assert (Es : s = g ++ skipn m s).
      { rewrite <- (firstn_skipn m s) at 1. f_equal. apply (f_equal (firstn m)) in E. rewrite firstn_exact in E by exact L. rewrite E. rewrite firstn_app. replace (m - length s)%nat with 0%nat by lia. now rewrite firstn_O, app_nil_r. }
      rewrite Es in P. apply passes_split in P as (tmp1 & acc1 & -> & P). apply (IH (skipn m s) r); try assumption.
      rewrite Es, <- app_assoc in E. now apply app_inv_head in E.
    + assert (Eg : g = s ++ skipn (length s) g).
      { rewrite <- (firstn_skipn (length s) g) at 1. f_equal. apply (f_equal (firstn (length s))) in E. rewrite (firstn_exact (length s) s) in E by reflexivity. rewrite firstn_app in E. replace (length s - length g)%nat with 0%nat in E by lia. now rewrite firstn_O, app_nil_r in E. }
      set (r1 := skipn (length s) g) in *. assert (Lr : length r1 = (m - length s)%nat) by (unfold r1; rewrite skipn_length; lia).
      rewrite Eg, <- app_assoc in E. apply app_inv_head in E. destruct R as [->|((x & r' & -> & Sx) & R)].
      { apply app_eq_nil in E as (E & _). rewrite E in Lr. cbn in Lr. lia. }
      rewrite Eg. rewrite P. destruct r1 as [|y r1]; [cbn in Lr; lia|]. cbn [app] in E. injection E as -> E. cbn [parse_slots]. rewrite Sx.
      apply (groups_stop m M); [exact F|]. destruct R as [R|R].
      * subst r'. cbn [length] in R, Lr. rewrite app_length in R. destruct groups as [|g2 groups]; [constructor|]. apply Forall_inv in F. cbn [concat] in R. rewrite app_length in R. lia.
      * apply Forall_inv_tail in R. subst r'. now apply Forall_app in R as (_ & R).
Qed.

Lemma chain_groups image v table m fuel : forall clusters tmp acc, linked (v_type v) table clusters -> (length clusters < fuel)%nat -> m = Z.to_nat (bytes_per_cluster_of v / 32) ->
  parse_in_chain image v table fuel (hd_error clusters) tmp acc = run_groups (map (fun c => slots_at image (cluster_address v c) m) clusters) tmp acc.
Proof.
  induction fuel as [|fuel IH]; intros clusters tmp acc L Fu M; [lia|]. destruct clusters as [|c rest]; [inversion L|]. cbn [hd_error parse_in_chain]. rewrite (linked_step _ _ _ _ L).
  cbn [map run_groups]. unfold parse_in_address. rewrite <- M. rewrite (parse_slots_acc _ tmp acc). destruct (parse_slots _ tmp []) as [(es, t)|e]; [|reflexivity].
  destruct (linked_tail _ _ _ _ L) as [->|L'].
  - cbn [hd_error map run_groups]. destruct fuel as [|fuel]; [cbn in Fu; lia|]. reflexivity.
  - apply IH; [exact L'|cbn in Fu; lia|exact M].
Qed.
Lemma slots_concat image a : 0 <= a -> forall n, concat (slots_at image a n) = zslice image a (32 * Z.of_nat n).
Proof.
  intros A. unfold slots_at. induction n as [|n IH]; [cbn [seq map concat]; now rewrite zslice_le0 by lia|]. rewrite seq_S, map_app, concat_app, IH. cbn [Nat.add map concat]. rewrite app_nil_r.
  rewrite <- zslice_add by lia. f_equal. lia.
Qed.
Lemma slots_32 image a n : 0 <= a -> len (zslice image a (32 * Z.of_nat n)) = 32 * Z.of_nat n -> Forall (fun s => length s = 32%nat) (slots_at image a n).
Proof.
  intros A H. rewrite len_zslice in H by lia. apply Forall_forall. intros s Hs. unfold slots_at in Hs. apply in_map_iff in Hs as (i & <- & Hi). apply in_seq in Hi.
  apply Nat2Z.inj. change (len (zslice image (a + 32 * Z.of_nat i) 32) = 32). rewrite len_zslice by lia. lia.
Qed.
Lemma slots_count image a n : length (slots_at image a n) = n.
Proof. unfold slots_at. now rewrite map_length, seq_length. Qed.
Lemma concat_inj {X} (n : nat) : (0 < n)%nat -> forall a b : list (list X), Forall (fun s => length s = n) a -> Forall (fun s => length s = n) b -> concat a = concat b -> a = b.
Proof.
  intros N. induction a as [|x a IH]; intros b Fa Fb E.
  - destruct b as [|y b]; [reflexivity|]. apply Forall_inv in Fb. cbn [concat] in E. symmetry in E. apply app_eq_nil in E as (-> & _). cbn in Fb. lia.
  - apply Forall_cons_iff in Fa as (Lx & Fa). destruct b as [|y b]; [cbn [concat] in E; apply app_eq_nil in E as (-> & _); cbn in Lx; lia|]. apply Forall_cons_iff in Fb as (Ly & Fb). cbn [concat] in E.
    assert (x = y) as <-.
    { apply (f_equal (firstn n)) in E. now rewrite !firstn_exact in E by assumption. }
    apply app_inv_head in E. f_equal. now apply IH.
Qed.
Lemma chunk32 : forall (l : list Z), Z.of_nat (length l) mod 32 = 0 -> exists c, Forall (fun s => length s = 32%nat) c /\ concat c = l.
Proof.
  intros l H. pose proof (Z.div_mod (Z.of_nat (length l)) 32 ltac:(lia)) as DM. rewrite H, Z.add_0_r in DM. remember (Z.to_nat (Z.of_nat (length l) / 32)) as k eqn:K.
  assert (Lk : length l = (32 * k)%nat) by (subst k; pose proof (Z.div_pos (Z.of_nat (length l)) 32 ltac:(lia) ltac:(lia)); lia). clear - Lk. revert l Lk.
  induction k as [|k IH]; intros l L; [exists []; split; [constructor|destruct l; [reflexivity|cbn in L; lia]]|].
  destruct (IH (skipn 32 l)) as (c & F & E); [rewrite skipn_length; lia|]. exists (firstn 32 l :: c). split; [constructor; [rewrite firstn_length; lia|exact F]|]. cbn [concat]. rewrite E. apply firstn_skipn.
Qed.

Lemma item_slots_32 : forall items, Forall valid_item items -> Forall (fun s => length s = 32%nat) (concat (map item_slots items)).
Proof.
  induction 1 as [|i items V _ IH]; [constructor|]. cbn [map concat]. apply Forall_app. split; [|exact IH]. destruct i as [r|e]; cbn [item_slots].
  - repeat constructor. cbn in *. lia.
  - unfold entry_slots. apply Forall_app. split; [|repeat constructor; pose proof (entry_slot_len e V) as H; unfold len in H; lia].
    destruct V as (_ & _ & _ & _ & _ & _ & _ & _ & _ & _ & _ & _ & _ & _ & P). assert (FP : Forall (fun p => length p = 13%nat) (e_parts e)) by (destruct P as [->|(name & _ & _ & P1 & _)]; [constructor|exact P1]).
    assert (G : forall parts i, Forall (fun p : list Z => length p = 13%nat) parts -> Forall (fun s => length s = 32%nat) (part_slots (name_sum (short_field e)) i parts)); [|now apply G].
    clear. induction parts as [|p r IH]; intros i F; [constructor|]. apply Forall_cons_iff in F as (L & F). assert (S1 : forall o, length (part_slot (name_sum (short_field e)) o p) = 32%nat) by (intros o; pose proof (part_slot_len (name_sum (short_field e)) o p L) as H; unfold len in H; lia).
    destruct r as [|p' r]; [repeat constructor; apply S1|]. change (part_slots (name_sum (short_field e)) i (p :: p' :: r)) with (part_slots (name_sum (short_field e)) (i + 1) (p' :: r) ++ [part_slot (name_sum (short_field e)) i p]).
    apply Forall_app. split; [now apply IH|repeat constructor; apply S1].
Qed.
Lemma rest_slots size rest : ended size rest -> exists r, concat r = rest /\ Forall (fun s => length s = 32%nat) r /\
  (r = [] \/ (exists x r', r = x :: r' /\ stops x) /\ ((32 * Z.of_nat (length r) <= size) \/ Forall stops r)).
Proof.
  intros (M & H). destruct (chunk32 rest M) as (r & F & E). exists r. split; [exact E|]. split; [exact F|]. destruct H as [->|((r0 & ->) & H)].
  - left. destruct r as [|x r]; [reflexivity|]. apply Forall_inv in F. cbn [concat] in E. apply app_eq_nil in E as (-> & _). cbn in F. lia.
  - right. split.
    + destruct r as [|x r]; [discriminate|]. exists x, r. split; [reflexivity|]. apply Forall_inv in F. destruct x as [|y x]; [cbn in F; lia|]. cbn [concat app] in E. injection E as -> _. now apply zero_stops.
    + assert (Lc : forall l : list (list Z), Forall (fun s => length s = 32%nat) l -> length (concat l) = (32 * length l)%nat).
      { clear. induction 1 as [|x l L _ IH]; [reflexivity|]. cbn [concat length]. rewrite app_length, IH. lia. }
      specialize (Lc r F). rewrite E in Lc. destruct H as [H|H]; [left; lia|right].
      apply Forall_forall. intros x Hx. assert (Lx : length x = 32%nat) by (rewrite Forall_forall in F; now apply F). assert (Zx : Forall (eq 0) x).
      { apply Forall_forall. intros y Hy. rewrite Forall_forall in H. apply H. rewrite <- E. apply in_concat. now exists x. }
      destruct x as [|y x]; [cbn in Lx; lia|]. apply Forall_inv in Zx. subst y. now apply zero_stops.
Qed.

(** *** Volumes *)
Lemma sectors_pos image b : boot_sector_of image b -> valid_boot b -> 0 < sectors_in_fat b /\ 0 <= sectors_in_root b /\ 0 <= b_root_entries b /\ 32 * b_root_entries b = sectors_in_root b * b_bytes_per_sector b.
Proof.
  intros (_ & B & _ & _ & _ & _ & _ & _ & H5 & _ & _ & H8 & _ & H10 & _) (V1 & _ & _ & _ & _ & (k & V6) & _ & V8).
  pose proof (stored_nonneg _ _ _ _ B H5) as R0. assert (P : 0 < b_bytes_per_sector b) by (cbn in V1; lia).
  assert (Rs : sectors_in_root b = k) by (unfold sectors_in_root; rewrite V6; apply Z.div_mul; lia). split; [|split; [|split; [exact R0|]]].
  - unfold sectors_in_fat. destruct (Z.eqb_spec (b_fat_size16 b) 0) as [E|E]; [pose proof (stored_nonneg _ _ _ _ B (H10 E)); lia|pose proof (stored_nonneg _ _ _ _ B H8); lia].
  - rewrite Rs. nia.
  - rewrite Rs. lia.
Qed.
Lemma open_readable image b : readable_volume image b -> exists v table n, open_volume image = Ok (v, table) /\ v_type v = type_of b /\ bytes_per_cluster_of v = cluster_size b /\
  (forall c, cluster_address v c = cluster_start b c) /\ table = entries (type_of b) (fat_bytes image b) n /\ entries_in (type_of b) (fat_bytes image b) - 1 <= n /\
  v_root_dir_sector v * h_bytes_per_sec (v_header v) = root_start b /\ h_root_ent (v_header v) = b_root_entries b /\ (type_of b = FAT32 -> h_root_clus (v_header v) = field image 44 4).
Proof.
  intros (Bs & V & C32 & C12 & Le). pose proof (parse_boot image b Bs V) as P. destruct (sectors_pos image b Bs V) as (Pf & Pr & Pe & Er).
  assert (Ps : 512 <= b_bytes_per_sector b /\ b_bytes_per_sector b mod 4 = 0) by (destruct V as (V1 & _); cbn in V1; destruct V1 as [<-|[<-|[<-|[<-|[]]]]]; split; (lia || reflexivity)).
  assert (Pv : 0 < b_reserved b) by apply V.
  set (fat := fat_bytes image b).
  assert (Lf : len fat = sectors_in_fat b * b_bytes_per_sector b).
  { change fat with (zslice image (b_reserved b * b_bytes_per_sector b) (sectors_in_fat b * b_bytes_per_sector b)). rewrite len_zslice by nia. change (Z.of_nat (length image)) with (len image) in Le. nia. }
  assert (Bf : are_bytes fat) by (apply (are_bytes_zslice image (b_reserved b * b_bytes_per_sector b) (sectors_in_fat b * b_bytes_per_sector b)); apply Bs).
  assert (M : len fat mod 4 = 0) by (rewrite Lf, Z.mul_mod by lia; destruct Ps as (_ & ->); now rewrite Z.mul_0_r).
  unfold open_volume. rewrite P. cbv zeta. unfold first_fat. cbn [v_header v_type v_fat_size h_bytes_per_sec h_rsvd].
  match goal with |- context [determine_fat_type ?h 0] => assert (T : determine_fat_type h 0 = type_of b) by now apply (type_right image b) end. rewrite T.
  replace (b_bytes_per_sector b * sectors_in_fat b) with (sectors_in_fat b * b_bytes_per_sector b) by lia.
  change (zslice image (b_reserved b * b_bytes_per_sector b) (sectors_in_fat b * b_bytes_per_sector b)) with fat. rewrite Lf, Z.eqb_refl. rewrite parse_entries by (try assumption; nia).
  eexists _, _, _. split; [reflexivity|]. unfold bytes_per_cluster_of, cluster_address. cbn [v_header v_type v_first_data_sector v_root_dir_sector h_bytes_per_sec h_sec_per_clus h_root_ent h_root_clus].
  split; [reflexivity|]. split; [unfold cluster_size; lia|]. split; [intros c; unfold cluster_start; lia|]. split; [reflexivity|]. split; [fold fat; destruct (type_of b); try lia; destruct (_ =? 2); lia|].
  split; [unfold root_start; lia|]. split; [reflexivity|]. intros T32. apply C32 in T32. rewrite T32. reflexivity.
Qed.
Lemma linked_more t fat n m l : n <= m -> linked t (entries t fat n) l -> linked t (entries t fat m) l.
Proof.
  intros Le H. assert (Va : forall c x, value_at (entries t fat n) c x -> value_at (entries t fat m) c x).
  { intros c x (C0 & Hc). split; [exact C0|]. unfold entries in *. assert (Hb : (Z.to_nat c < length (map (stored_entry t fat) (seq 0 (Z.to_nat n))))%nat) by (apply nth_error_Some; congruence).
    replace (Z.to_nat m) with (Z.to_nat n + (Z.to_nat m - Z.to_nat n))%nat by lia. rewrite seq_app, map_app, nth_error_app1 by exact Hb. exact Hc. }
  induction H as [c x Hv He|c d r Hv Hd Hl IH]; [apply (linked_last _ _ c x); auto|apply linked_next; auto].
Qed.

Lemma read_dir image b v table n first items : readable_volume image b -> v_type v = type_of b -> bytes_per_cluster_of v = cluster_size b ->
  (forall c, cluster_address v c = cluster_start b c) -> table = entries (type_of b) (fat_bytes image b) n -> entries_in (type_of b) (fat_bytes image b) - 1 <= n ->
  holds_dir image b first items -> Forall valid_item items ->
  exists k, forall fuel, (k <= fuel)%nat -> parse_in_chain image v table fuel (Some first) [] [] = Ok (map (fun e => entry_dentry e (lfn_of e)) (present items)).
Proof.
  intros (Bs & V & _ & _ & _) T Bc Ad -> Ln (others & rest & L & Cl & D & En) Vi. exists (S (length (first :: others))). intros fuel Fu.
  destruct (sectors_pos image b Bs V) as (Pf & Pr & _). assert (Pv : 0 < b_reserved b) by apply V. assert (Pn : 0 < b_fats b) by apply V.
  assert (Ps : b_bytes_per_sector b = 16 * 32 \/ b_bytes_per_sector b = 32 * 32 \/ b_bytes_per_sector b = 64 * 32 \/ b_bytes_per_sector b = 128 * 32) by (destruct V as (V1 & _); cbn in V1; lia).
  assert (Pc : 0 < b_sectors_per_cluster b) by (destruct V as (_ & V2 & _); cbn in V2; lia).
  assert (Bm : exists m, cluster_size b = 32 * Z.of_nat m /\ (0 < m)%nat /\ m = Z.to_nat (bytes_per_cluster_of v / 32)).
  { exists (Z.to_nat (cluster_size b / 32)). rewrite Bc. unfold cluster_size. assert (E : exists q, b_bytes_per_sector b = q * 32 /\ 0 < q) by (destruct Ps as [->|[->|[->| ->]]]; eexists; (split; [reflexivity|lia])).
    destruct E as (q & -> & Q). rewrite Z.mul_assoc, Z.div_mul by lia. split; [nia|]. split; [nia|reflexivity]. }
  destruct Bm as (m & Em & Pm & Mv).
  change (Some first) with (hd_error (first :: others)). rewrite (chain_groups image v _ m) by (try lia; try exact Mv; rewrite T; now apply (linked_more _ _ (entries_in (type_of b) (fat_bytes image b) - 1))).
  destruct (rest_slots _ _ En) as (r & Er & Fr & Rr).
  assert (St : forall c, In c (first :: others) -> 0 <= cluster_start b c) by (intros c I; destruct (Cl c I); unfold cluster_start, first_data; nia).
  assert (Sl : forall c, In c (first :: others) -> concat (slots_at image (cluster_address v c) m) = cluster_bytes image b c /\ Forall (fun s => length s = 32%nat) (slots_at image (cluster_address v c) m)).
  { intros c I. rewrite Ad. destruct (Cl c I) as (C2 & Lc). assert (E : cluster_bytes image b c = zslice image (cluster_start b c) (32 * Z.of_nat m)) by (rewrite <- Em; reflexivity).
    split; [rewrite slots_concat by auto; now rewrite E|]. apply slots_32; [auto|]. rewrite <- E, <- Em. exact Lc. }
  apply (groups_pass m Pm _ (concat (map item_slots items)) r).
  - apply Forall_forall. intros g Hg. apply in_map_iff in Hg as (c & <- & _). apply slots_count.
  - apply (concat_inj 32); [lia| | |].
    + apply Forall_concat. apply Forall_forall. intros g Hg. apply in_map_iff in Hg as (c & <- & I). apply Sl. exact I.
    + apply Forall_app. split; [now apply item_slots_32|exact Fr].
    + rewrite concat_app, Er. fold (items_bytes items). rewrite <- D. clear - Sl. revert Sl. generalize (first :: others). induction l as [|c l IH]; intros Sl; [reflexivity|].
      cbn [map concat]. rewrite concat_app. rewrite (proj1 (Sl c (or_introl eq_refl))). f_equal. apply IH. intros x I. apply Sl. now right.
  - intros rest'. now apply (parse_items items rest' []).
  - destruct Rr as [->|(R1 & R2)]; [now left|right]. split; [exact R1|]. destruct R2 as [R2|R2]; [left; lia|now right].
Qed.

Lemma read_root image b v table n items : readable_volume image b -> v_type v = type_of b -> bytes_per_cluster_of v = cluster_size b ->
  (forall c, cluster_address v c = cluster_start b c) -> table = entries (type_of b) (fat_bytes image b) n -> entries_in (type_of b) (fat_bytes image b) - 1 <= n ->
  v_root_dir_sector v * h_bytes_per_sec (v_header v) = root_start b -> h_root_ent (v_header v) = b_root_entries b -> (type_of b = FAT32 -> h_root_clus (v_header v) = field image 44 4) ->
  holds_root image b items -> Forall valid_item items ->
  exists k, forall fuel, (k <= fuel)%nat -> root_entries image v table fuel = Ok (map (fun e => entry_dentry e (lfn_of e)) (present items)).
Proof.
  intros R T Bc Ad Et Ln Rs Re Rc H Vi. unfold root_entries, holds_root in *. rewrite T in *.
  assert (Area : (exists rest, firstn (Z.to_nat (32 * b_root_entries b)) (skipn (Z.to_nat (root_start b)) image) = items_bytes items ++ rest /\
           root_start b + 32 * b_root_entries b <= Z.of_nat (length image) /\ (rest = [] \/ exists r, rest = 0 :: r) /\ Z.of_nat (length rest) mod 32 = 0) ->
     exists k, forall fuel, (k <= fuel)%nat -> (match parse_in_address image (v_root_dir_sector v * h_bytes_per_sec (v_header v)) (Z.to_nat (h_root_ent (v_header v))) [] with Err e => Err e | Ok (es, _) => Ok es end)
       = Ok (map (fun e => entry_dentry e (lfn_of e)) (present items))).
  { intros (rest & D & Le & Hr & M). exists 0%nat. intros _ _. rewrite Rs, Re. destruct R as (Bs & V & _). destruct (sectors_pos image b Bs V) as (Pf & _ & Pe & _). assert (Pv : 0 < b_reserved b) by apply V. assert (Pn : 0 < b_fats b) by apply V.
    assert (Ps : 0 < b_bytes_per_sector b) by (destruct V as (V1 & _); cbn in V1; lia). assert (S0 : 0 <= root_start b) by (unfold root_start; nia).
    set (m := Z.to_nat (b_root_entries b)). assert (Em : 32 * Z.of_nat m = 32 * b_root_entries b) by lia.
    assert (E : zslice image (root_start b) (32 * Z.of_nat m) = items_bytes items ++ rest) by (rewrite Em; exact D).
    assert (En : ended (Z.of_nat (length rest)) rest) by (split; [exact M|]; destruct Hr as [->|Hr]; [now left|right; split; [exact Hr|left; lia]]).
    destruct (rest_slots _ _ En) as (r & Er & Fr & Rr).
    assert (Sl : slots_at image (root_start b) m = concat (map item_slots items) ++ r).
    { apply (concat_inj 32); [lia| | |].
      - apply slots_32; [exact S0|]. rewrite len_zslice by lia. change (Z.of_nat (length image)) with (len image) in Le. lia.
      - apply Forall_app. split; [now apply item_slots_32|exact Fr].
      - rewrite slots_concat by exact S0. rewrite concat_app, Er. exact E. }
    unfold parse_in_address. rewrite Sl. rewrite parse_items by exact Vi. cbn [app]. destruct Rr as [->|((x & r' & -> & Sx) & _)]; [reflexivity|]. cbn [parse_slots]. now rewrite Sx. }
  destruct (type_of b) eqn:Tb; [now apply Area|now apply Area|]. destruct H as (first & S44 & H). rewrite (Rc eq_refl). unfold field. rewrite le_number. unfold stored_at in S44. change (zslice image 44 4) with (firstn (Z.to_nat 4) (skipn (Z.to_nat 44) image)). rewrite S44.
  apply (read_dir image b v table n first items R); rewrite ?Tb; assumption.
Qed.

(** What is seen of an entry. *)
Section Seen.
  Variable oem : Z -> Z.
  Variable is_space : Z -> bool.
  Lemma entry_shows e : is_space (oem 32) = true -> valid_entry e -> shows oem is_space e (entry_dentry e (lfn_of e)).
  Proof.
    intros B V. unfold shows. split; [now apply short_name_of|]. unfold long_name. cbn [entry_dentry d_lfn d_attr d_size d_wrtdate d_wrttime]. split; [intros H; unfold lfn_of; now rewrite H|]. split.
    - intros name H. unfold lfn_of. destruct (e_parts e) as [|p ps] eqn:E.
      + exfalso. destruct H as (N & F & _ & _ & H). destruct (utf16_last name N F) as (u & x & Eu & _). rewrite Eu in H. cbn [concat] in H. destruct H as [H|(k & H)]; destruct u; discriminate.
      + cbn [option_map]. f_equal. now apply name_of_parts.
    - split; [reflexivity|]. split; [|now repeat split]. unfold get_cluster. cbn [entry_dentry d_cluster_lo d_cluster_hi]. rewrite Z.shiftl_mul_pow2 by lia. change (2 ^ 16) with 65536. pose proof (Z.div_mod (e_cluster e) 65536 ltac:(lia)). lia.
  Qed.
  Lemma all_show items : is_space (oem 32) = true -> Forall valid_item items -> Forall2 (shows oem is_space) (present items) (map (fun e => entry_dentry e (lfn_of e)) (present items)).
  Proof.
    intros B F. unfold present. induction F as [|i items V F IH]; [constructor|]. cbn [map concat]. destruct i as [r|e]; [exact IH|]. cbn [app map]. constructor; [now apply entry_shows|exact IH].
  Qed.
End Seen.

(** ** Times *)
Lemma date_back y m d : valid_date y m d -> deserialize_date (date_field y m d) = (y, m, d).
Proof.
  intros (Y & M & D). assert (Dl : days_in_month y m = month_length y m).
  { assert (m = 1 \/ m = 2 \/ m = 3 \/ m = 4 \/ m = 5 \/ m = 6 \/ m = 7 \/ m = 8 \/ m = 9 \/ m = 10 \/ m = 11 \/ m = 12) as H by lia.
    repeat (destruct H as [->|H]; [reflexivity|]). subst m. reflexivity. }
  assert (D31 : d <= 31).
  { rewrite <- Dl in D. unfold days_in_month in D. destruct (m =? 2); [destruct (is_leap y); lia|]. destruct (_ || _); lia. }
  unfold deserialize_date, date_field. change (Z.shiftl 1 5 - 1) with (Z.ones 5). change (Z.shiftl 1 4 - 1) with (Z.ones 4). change (Z.shiftl 1 7 - 1) with (Z.ones 7).
  rewrite !Z.land_ones, !Z.shiftr_div_pow2 by lia. change (2 ^ 5) with 32. change (2 ^ 4) with 16. change (2 ^ 7) with 128. change (2 ^ 9) with 512.
  assert (E1 : ((y - 1980) * 512 + m * 32 + d) mod 32 = d) by (symmetry; apply (Z.mod_unique _ 32 ((y - 1980) * 16 + m)); lia).
  assert (E2 : ((y - 1980) * 512 + m * 32 + d) / 32 = (y - 1980) * 16 + m) by (symmetry; apply (Z.div_unique _ 32 _ d); lia).
  assert (E3 : ((y - 1980) * 512 + m * 32 + d) / 512 = y - 1980) by (symmetry; apply (Z.div_unique _ 512 _ (m * 32 + d)); lia).
  rewrite E1, E2, E3. assert (E4 : ((y - 1980) * 16 + m) mod 16 = m) by (symmetry; apply (Z.mod_unique _ 16 (y - 1980)); lia). rewrite E4, (Z.mod_small (y - 1980)) by lia.
  replace (y - 1980 + 1980) with y by lia. rewrite Dl. destruct (Z.leb_spec 1 m); [|lia]. destruct (Z.leb_spec m 12); [|lia]. destruct (Z.leb_spec 1 d); [|lia]. destruct (Z.leb_spec d (month_length y m)); [reflexivity|lia].
Qed.
Lemma time_back h m s : valid_time h m s -> deserialize_time (time_field h m s) = (h, m, s / 2 * 2).
Proof.
  intros (H & M & S). pose proof (Z.div_mod s 2 ltac:(lia)) as DM. pose proof (Z.mod_pos_bound s 2 ltac:(lia)). set (q := s / 2) in *.
  unfold deserialize_time, time_field. fold q. change (Z.shiftl 1 5 - 1) with (Z.ones 5). change (Z.shiftl 1 6 - 1) with (Z.ones 6).
  rewrite !Z.land_ones, !Z.shiftr_div_pow2 by lia. change (2 ^ 5) with 32. change (2 ^ 6) with 64. change (2 ^ 11) with 2048.
  assert (E1 : (h * 2048 + m * 32 + q) mod 32 = q) by (symmetry; apply (Z.mod_unique _ 32 (h * 64 + m)); lia).
  assert (E2 : (h * 2048 + m * 32 + q) / 32 = h * 64 + m) by (symmetry; apply (Z.div_unique _ 32 _ q); lia).
  assert (E3 : (h * 2048 + m * 32 + q) / 2048 = h) by (symmetry; apply (Z.div_unique _ 2048 _ (m * 32 + q)); lia).
  rewrite E1, E2, E3. assert (E4 : (h * 64 + m) mod 64 = m) by (symmetry; apply (Z.mod_unique _ 64 h); lia). rewrite E4, (Z.mod_small h) by lia.
  destruct (Z.leb_spec h 23); [|lia]. destruct (Z.leb_spec m 59); [|lia]. destruct (Z.leb_spec (q * 2) 59); [reflexivity|lia].
Qed.
