From Verif Require Import PyBase MemFile_Spec Fat_Model Fat_Spec.
Local Open Scope Z_scope.

(** ** Chains *)
Lemma value_step t table c v : value_at table c v ->
  chain_step t table c = if (2 <=? v) && (v <=? max_data t) then Ok (Some (c, Some v))
      else if (match t with FAT12 => true | _ => false end) && (v =? special_eoc) then Ok (Some (c, None))
      else if (eoc_min t <=? v) && (v <=? eoc_max t) then Ok (Some (c, None)) else Err (OSErr 0).
Proof.
  intros (C & H). unfold chain_step. assert (B : (Z.to_nat c < length table)%nat) by (apply nth_error_Some; congruence).
  destruct (Z.leb_spec c (len table)); [|unfold len in *; lia]. destruct (Z.ltb_spec c 0); [lia|]. rewrite H.
  destruct ((2 <=? v) && (v <=? max_data t)); [reflexivity|]. destruct (_ && (v =? special_eoc)); [reflexivity|]. destruct (_ && _); [reflexivity|].
  destruct (v =? bad_mark t); [reflexivity|]. now destruct (v =? 0).
Qed.
Lemma step_last t table c v : value_at table c v -> ends_chain t v -> chain_step t table c = Ok (Some (c, None)).
Proof.
  intros V E. rewrite (value_step t table c v V). unfold max_data, special_eoc, eoc_min, eoc_max.
  destruct t; cbn in E; repeat (match goal with |- context [?a <=? ?b] => destruct (Z.leb_spec a b) | |- context [?a =? ?b] => destruct (Z.eqb_spec a b) end; cbn [andb]); try reflexivity; lia.
Qed.
Lemma step_next t table c d : value_at table c d -> data_cluster t d -> chain_step t table c = Ok (Some (c, Some d)).
Proof.
  intros V E. rewrite (value_step t table c d V). unfold data_cluster in E. unfold max_data.
  destruct (Z.leb_spec 2 d); [|lia]. destruct t; cbn [andb]; match goal with |- context [?a <=? ?b] => destruct (Z.leb_spec a b) end; (reflexivity || lia).
Qed.
Lemma linked_step t table c rest : linked t table (c :: rest) -> chain_step t table c = Ok (Some (c, hd_error rest)).
Proof. intros H. inversion H; subst; [now apply (step_last t table c v)|now apply step_next]. Qed.
Lemma linked_tail t table c rest : linked t table (c :: rest) -> rest = [] \/ linked t table rest.
Proof. intros H. inversion H; subst; [now left|now right]. Qed.
Lemma linked_skipn t table j : forall l, linked t table l -> (j < length l)%nat -> linked t table (skipn j l).
Proof.
  induction j as [|j IH]; intros l H L; [exact H|]. destruct l as [|c rest]; [cbn in L; lia|]. cbn [skipn]. destruct (linked_tail _ _ _ _ H) as [->|H']; [cbn in L; lia|].
  apply IH; [exact H'|cbn in L; lia].
Qed.
Lemma skipn_cons {X} (j : nat) (l : list X) c r : skipn j l = c :: r -> nth_error l j = Some c /\ skipn (S j) l = r.
Proof.
  revert l. induction j as [|j IH]; intros [|x l] H; cbn [skipn nth_error] in *; try discriminate; [injection H as -> ->; now split|]. now apply IH.
Qed.
Lemma skipn_nth {X} (j : nat) (l : list X) c : nth_error l j = Some c -> skipn j l = c :: skipn (S j) l.
Proof.
  revert l. induction j as [|j IH]; intros [|x l] H; cbn [nth_error skipn] in *; try discriminate; [now injection H as ->|]. now apply IH.
Qed.

Lemma pull_linked t table l : linked t table l -> forall k i c, nth_error l (i + k) = Some c -> forall c0, pull t table (S k) (nth_error l i) c0 = Ok c.
Proof.
  intros L k. induction k as [|k IH]; intros i c H c0.
  - rewrite Nat.add_0_r in H. cbn [pull]. rewrite H. pose proof (linked_skipn t table i l L) as Ls. rewrite (skipn_nth i l c H) in Ls.
    rewrite (linked_step t table c (skipn (S i) l)); [reflexivity|]. apply Ls. apply nth_error_Some. congruence.
  - destruct (nth_error l i) as [x|] eqn:E.
    2:{ exfalso. apply nth_error_None in E. assert (i + S k < length l)%nat by (apply nth_error_Some; congruence). lia. }
    pose proof (linked_skipn t table i l L) as Ls. rewrite (skipn_nth i l x E) in Ls.
    change (pull t table (S (S k)) (Some x) c0) with (match chain_step t table x with Err e => Err e | Ok None => Err RuntimeError | Ok (Some (c, next)) => pull t table (S k) next c end).
    rewrite (linked_step t table x (skipn (S i) l)) by (apply Ls; apply nth_error_Some; congruence).
    replace (hd_error (skipn (S i) l)) with (nth_error l (S i)).
    + apply IH. replace (S i + k)%nat with (i + S k)%nat by lia. exact H.
    + destruct (nth_error l (S i)) as [y|] eqn:E2; [rewrite (skipn_nth _ _ _ E2); reflexivity|]. apply nth_error_None in E2. rewrite skipn_all2 by exact E2. reflexivity.
Qed.

Lemma nonempty_len {X} (l : list X) : l <> [] <-> 0 < len l.
Proof. destruct l as [|x l]; [change (@len X []) with 0; split; [congruence|lia]|]. rewrite len_cons. pose proof (len_nonneg l). split; [lia|discriminate]. Qed.

Section File.
  Context {A : Type}.
  Variable read_cluster : Z -> list A.
  Variable t : fat_type.
  Variable table : list Z.
  Variable bpc : Z.
  Variable first : Z.
  Variable content : list A.
  Hypothesis BPC : 0 < bpc.
  Variable clusters : list Z.
  Hypothesis First : content <> [] -> nth_error clusters 0 = Some first.
  Hypothesis L : content <> [] -> linked t table clusters.
  Hypothesis Full : forall c, In c clusters -> len (read_cluster c) = bpc.
  Variable slack : list A.
  Hypothesis Data : concat (map read_cluster clusters) = content ++ slack.
  Let size := len content.
  Let n := len clusters.

  Lemma size_clusters : size <= n * bpc.
  Proof.
    assert (H : len (concat (map read_cluster clusters)) = n * bpc).
    { unfold n. clear - Full. induction clusters as [|c l IH]; [reflexivity|]. cbn [map concat]. rewrite len_app, len_cons, IH; [|intros x I; apply Full; now right].
      rewrite (Full c) by now left. lia. }
    rewrite <- H, Data, len_app. pose proof (len_nonneg slack). unfold size. lia.
  Qed.

  (** The bytes from a place in a cluster on. *)
  Lemma bytes_from : forall l, (forall c, In c l -> len (read_cluster c) = bpc) -> forall j : nat, (j <= length l)%nat ->
    zskip (Z.of_nat j * bpc) (concat (map read_cluster l)) = concat (map read_cluster (skipn j l)).
  Proof.
    induction l as [|c l IH]; intros F j J; [destruct j; cbn in J; [reflexivity|lia]|].
    destruct j as [|j]; [reflexivity|]. cbn [skipn map concat].
    replace (Z.of_nat (S j) * bpc) with (len (read_cluster c) + Z.of_nat j * bpc) by (rewrite (F c) by (now left); lia).
    rewrite zskip_app_ge by lia. replace (len (read_cluster c) + Z.of_nat j * bpc - len (read_cluster c)) with (Z.of_nat j * bpc) by lia.
    apply IH; [intros x I; apply F; now right|cbn in J; lia].
  Qed.

  Definition state_at (st : fat_state) (p : Z) : Prop :=
    f_bpos st = p /\ 0 <= p <= size /\ 0 <= f_cindex st /\ 0 <= f_coffpos st <= bpc /\ f_cindex st * bpc + f_coffpos st = p /\
    (f_coffpos st = bpc -> p = size) /\ (content <> [] -> nth_error clusters (Z.to_nat (f_cindex st)) = Some (f_cpos st)).

  Lemma content_size : content <> [] <-> 0 < size.
  Proof. apply nonempty_len. Qed.

  Lemma open_at : state_at (fat_open first) 0.
  Proof.
    unfold state_at, fat_open. cbn [f_bpos f_cpos f_cindex f_coffpos]. pose proof (len_nonneg content). fold size in H. repeat split; try lia. exact First.
  Qed.

  Lemma seek_at st p o w : state_at st p -> let q := match w with 1 => p + o | 2 => size + o | _ => o end in 0 <= q -> w = 0 \/ w = 1 \/ w = 2 ->
    exists st', fat_seek t table bpc first size st o w = Ok (Z.min q size, st') /\ state_at st' (Z.min q size).
  Proof.
    intros (Hb & Hp & Hi & Ho & Hs & He & Hc) q Q W. unfold fat_seek.
    assert (E : Z.min (if w =? 1 then o + f_bpos st else if w =? 2 then o + size else o) size = Z.min q size).
    { unfold q. rewrite Hb. destruct W as [->|[->| ->]]; cbn; f_equal; lia. }
    rewrite E. clear E. pose proof size_clusters as SC. pose proof (len_nonneg content) as LC. fold size in LC. set (r := Z.min q size) in *. assert (R : 0 <= r <= size) by lia. clearbody r.
    pose proof (Z.div_mod r bpc ltac:(lia)) as DM. pose proof (Z.mod_pos_bound r bpc BPC) as MB. pose proof (Z.div_pos r bpc ltac:(lia) BPC) as DP.
    set (adj := (r =? size) && (0 <? r) && (r mod bpc =? 0)).
    assert (X : exists ci co, (if adj then (r / bpc - 1, bpc) else (r / bpc, r mod bpc)) = (ci, co) /\ 0 <= ci /\ 0 <= co <= bpc /\ ci * bpc + co = r /\ (co = bpc -> r = size) /\ (0 < size -> ci < n)).
    { unfold adj. destruct (Z.eqb_spec r size) as [E1|E1]; cbn [andb]; [destruct (Z.ltb_spec 0 r) as [E2|E2]; cbn [andb]; [destruct (Z.eqb_spec (r mod bpc) 0) as [E3|E3]|]|].
      - exists (r / bpc - 1), bpc. split; [reflexivity|]. rewrite E3, Z.add_0_r in DM. assert (0 < r / bpc) by nia. repeat split; try lia. intros _. assert (bpc * (r / bpc) <= n * bpc) by lia. nia.
      - exists (r / bpc), (r mod bpc). repeat split; try lia. intros _. apply (Z.mul_lt_mono_pos_r bpc); [exact BPC|]. lia.
      - exists (r / bpc), (r mod bpc). repeat split; try lia. 
      - exists (r / bpc), (r mod bpc). repeat split; try lia. intros _. apply (Z.mul_lt_mono_pos_r bpc); [exact BPC|]. lia. }
    destruct X as (ci & co & -> & C1 & C2 & C3 & C4 & C5).
    assert (Y : exists cp pi, (if ci <? f_cindex st then (first, 0) else (f_cpos st, f_cindex st)) = (cp, pi) /\ 0 <= pi <= ci /\ (content <> [] -> nth_error clusters (Z.to_nat pi) = Some cp)).
    { destruct (Z.ltb_spec ci (f_cindex st)); [exists first, 0|exists (f_cpos st), (f_cindex st)]; (split; [reflexivity|]; split; [lia|assumption]). }
    destruct Y as (cp & pi & -> & P1 & P2).
    assert (N : exists cp', (if pi <? ci then pull t table (Z.to_nat (ci - pi + 1)) (Some cp) cp else Ok cp) = Ok cp' /\ (content <> [] -> nth_error clusters (Z.to_nat ci) = Some cp')).
    { destruct (Z.ltb_spec pi ci) as [G|G]; [|exists cp; split; [reflexivity|]; now replace ci with pi by lia].
      assert (S0 : 0 < size) by nia. assert (NE : content <> []) by now apply content_size. specialize (C5 S0). specialize (P2 NE).
      assert (In' : (Z.to_nat ci < length clusters)%nat) by (unfold n, len in C5; lia).
      destruct (nth_error clusters (Z.to_nat ci)) as [c|] eqn:Ec; [|apply nth_error_None in Ec; lia]. exists c. split; [|reflexivity].
      replace (Z.to_nat (ci - pi + 1)) with (S (Z.to_nat (ci - pi))) by lia. rewrite <- P2. apply (pull_linked t table clusters (L NE)).
      replace (Z.to_nat pi + Z.to_nat (ci - pi))%nat with (Z.to_nat ci) by lia. exact Ec. }
    destruct N as (cp' & N1 & N2). destruct (pi <? ci); [rewrite N1|injection N1 as ->]; eexists; (split; [reflexivity|]);
      unfold state_at; cbn [f_bpos f_cpos f_cindex f_coffpos]; repeat split; (lia || assumption).
  Qed.

  (** Reading from a place in the chain. *)
  Lemma read_chain_at : forall fuel (j : nat) off want got (chunks : list A), content <> [] -> (j < length clusters)%nat -> 0 <= off < bpc -> 0 < want ->
    Z.of_nat j * bpc + off + want <= n * bpc -> want < Z.of_nat fuel ->
    read_chain read_cluster t table bpc fuel (nth_error clusters j) (got + want) off got chunks =
    Ok (chunks ++ zslice (concat (map read_cluster clusters)) (Z.of_nat j * bpc + off) want, got + want).
  Proof.
    induction fuel as [|fuel IH]; intros j off want got chunks NE J O W Le Fu; [lia|]. cbn [read_chain].
    destruct (nth_error clusters j) as [c|] eqn:E; [|apply nth_error_None in E; lia].
    pose proof (skipn_nth j clusters c E) as Sk. assert (Ls : linked t table (c :: skipn (S j) clusters)) by (rewrite <- Sk; apply linked_skipn; [now apply L|exact J]).
    rewrite (linked_step _ _ _ _ Ls). assert (Fc : len (read_cluster c) = bpc) by (apply Full; now apply nth_error_In in E).
    set (all := concat (map read_cluster clusters)).
    assert (Z0 : zskip (Z.of_nat j * bpc) all = read_cluster c ++ concat (map read_cluster (skipn (S j) clusters))).
    { unfold all. rewrite (bytes_from clusters Full) by lia. rewrite Sk. reflexivity. }
    assert (Ch : forall k, 0 <= k <= bpc - off -> py_slice (py_slice (read_cluster c) off (len (read_cluster c))) 0 k = zslice all (Z.of_nat j * bpc + off) k).
    { intros k Hk. rewrite (py_slice_zslice _ off) by lia. rewrite Fc. rewrite py_slice_zslice by lia. rewrite zslice_zslice by lia. rewrite Z.add_0_r, Z.sub_0_r.
      unfold zslice at 2. replace (Z.of_nat j * bpc + off) with (off + Z.of_nat j * bpc) by lia. rewrite <- zskip_zskip by lia. rewrite Z0.
      fold (zslice (read_cluster c ++ concat (map read_cluster (skipn (S j) clusters))) off k). symmetry. apply zslice_app_l; lia. }
    destruct (Z.ltb_spec (got + want) (got + (bpc - off))) as [X|X].
    - replace (got + want - got) with want by lia. rewrite Z.eqb_refl. rewrite Ch by lia. reflexivity.
    - rewrite Ch by lia. destruct (Z.eqb_spec (got + (bpc - off)) (got + want)) as [Y|Y].
      + replace want with (bpc - off) by lia. reflexivity.
      + replace (hd_error (skipn (S j) clusters)) with (nth_error clusters (S j)).
        2:{ destruct (nth_error clusters (S j)) as [y|] eqn:E2; [rewrite (skipn_nth _ _ _ E2); reflexivity|]. apply nth_error_None in E2. rewrite skipn_all2 by exact E2. reflexivity. }
        replace (got + want) with (got + (bpc - off) + (want - (bpc - off))) by lia. rewrite IH; try lia; [| exact NE|unfold n, len in Le; nia].
        rewrite <- app_assoc. do 3 f_equal. replace (Z.of_nat (S j) * bpc + 0) with (Z.of_nat j * bpc + off + (bpc - off)) by lia.
        rewrite <- zslice_add by lia. f_equal. lia.
  Qed.

  Lemma read_at st p k : state_at st p -> let d := if k <? 0 then zskip p content else zslice content p k in
    exists st', fat_read read_cluster t table bpc first size st k = Ok (d, st') /\ state_at st' (p + len d).
  Proof.
    intros St d. pose proof St as (Hb & Hp & Hi & Ho & Hs & He & Hc). unfold fat_read. rewrite Hb.
    set (want := if (size <? k + p) || (k <? 0) then size - p else k).
    assert (W : 0 <= want <= size - p /\ d = zslice content p want).
    { unfold want, d. destruct (Z.ltb_spec size (k + p)) as [X|X]; cbn [orb]; [|destruct (Z.ltb_spec k 0) as [Y|Y]].
      - split; [lia|]. destruct (Z.ltb_spec k 0) as [Y|Y]; [lia|]. rewrite (zslice_clip content p k) by lia. fold size. f_equal. lia.
      - split; [lia|]. unfold zslice. symmetry. apply ztake_all. rewrite len_zskip by lia. fold size. lia.
      - split; [lia|]. reflexivity. }
    destruct W as (W & ->). clearbody want. destruct (Z.eqb_spec want 0) as [->|NZ].
    { exists st. rewrite zslice_le0 by lia. split; [reflexivity|]. change (len []) with 0. now rewrite Z.add_0_r. }
    assert (S0 : 0 < size) by lia. assert (NE : content <> []) by now apply content_size. specialize (Hc NE).
    pose proof size_clusters as SC. rewrite <- Hc.
    assert (Of : f_coffpos st < bpc) by (assert (f_coffpos st <> bpc) by (intros X; specialize (He X); lia); lia).
    pose proof (read_chain_at (S (Z.to_nat want)) (Z.to_nat (f_cindex st)) (f_coffpos st) want 0 [] NE) as RC. rewrite Z.add_0_l, Z2Nat.id in RC by lia.
    rewrite RC by (try lia; unfold n, len in *; nia). cbn [app].
    assert (Ld : len (zslice content p want) = want) by (rewrite len_zslice by lia; fold size; lia).
    destruct (seek_at st p want 1 St) as (st' & E & St'); [lia|auto|]. rewrite E. rewrite Z.min_l in St' by lia.
    assert (Eq : zslice (concat (map read_cluster clusters)) (f_cindex st * bpc + f_coffpos st) want = zslice content p want).
    { rewrite Hs, Data. apply zslice_app_l; fold size; lia. }
    rewrite Eq, Ld, Z.eqb_refl. exists st'. split; [reflexivity|exact St'].
  Qed.

  Lemma run_at : forall cs st p, state_at st p -> capped_no_negative content p cs ->
    fat_run read_cluster t table bpc first size st cs = capped_run content p cs.
  Proof.
    induction cs as [|c cs IH]; intros st p St N; [reflexivity|]. destruct N as (N1 & N). destruct c as [o w|k|]; cbn [fat_run capped_run capped_call mem_call].
    - destruct (seek_at st p o (whence_of w) St) as (st' & E & St'); [destruct w; cbn in *; unfold size, len; lia|destruct w; cbn; auto|]. rewrite E.
      assert (T : match whence_of w with 1 => p + o | 2 => size + o | _ => o end = target content p o w) by (destruct w; reflexivity).
      rewrite T in *. cbn [capped_call snd] in N. f_equal. now apply IH.
    - destruct (read_at st p k St) as (st' & E & St'). rewrite E. apply (f_equal (cons _)). now apply IH.
    - unfold fat_tell. destruct (seek_at st p 0 1 St) as (st' & E & St'); [destruct St; lia|auto|]. rewrite Z.add_0_r in *. assert (Hp : p <= size) by apply St. rewrite Z.min_l in * by exact Hp. rewrite E.
      f_equal. now apply IH.
  Qed.
End File.

(** ** Tables *)
Lemma le_number l : le l = number l.
Proof. induction l as [|b l IH]; [reflexivity|]. cbn [le]. unfold number. cbn [fold_right]. fold (number l). now rewrite IH. Qed.
Lemma number_cons b l : number (b :: l) = b + 256 * number l.
Proof. reflexivity. Qed.
Lemma number_nonneg l : are_bytes l -> 0 <= number l.
Proof. induction 1 as [|b l B _ IH]; [reflexivity|]. rewrite number_cons. lia. Qed.
Lemma number_bound l : are_bytes l -> number l < 2 ^ (8 * len l).
Proof.
  induction 1 as [|b l B F IH]; [reflexivity|]. rewrite number_cons, len_cons. replace (8 * (1 + len l)) with (8 + 8 * len l) by lia. pose proof (len_nonneg l).
  rewrite Z.pow_add_r by lia. change (2 ^ 8) with 256. lia.
Qed.
Lemma number_skipn l : are_bytes l -> forall k, number (skipn k l) = number l / 2 ^ (8 * Z.of_nat k).
Proof.
  induction 1 as [|b l B F IH]; intros k.
  - rewrite skipn_nil. change (number []) with 0. now rewrite Z.div_0_l by (pose proof (Z.pow_pos_nonneg 2 (8 * Z.of_nat k)); lia).
  - destruct k as [|k]; [cbn [skipn]; change (2 ^ (8 * Z.of_nat 0)) with 1; now rewrite Z.div_1_r|]. cbn [skipn]. rewrite IH, number_cons.
    replace (8 * Z.of_nat (S k)) with (8 + 8 * Z.of_nat k) by lia. rewrite Z.pow_add_r by lia. rewrite <- Z.div_div by (try apply Z.pow_pos_nonneg; lia).
    change (2 ^ 8) with 256. f_equal. replace (b + 256 * number l) with (number l * 256 + b) by lia. rewrite Z.div_add_l by lia. rewrite (Z.div_small b 256) by lia. lia.
Qed.
Lemma number_firstn l : are_bytes l -> forall k, number (firstn k l) = number l mod 2 ^ (8 * Z.of_nat k).
Proof.
  induction 1 as [|b l B F IH]; intros k.
  - rewrite firstn_nil. change (number []) with 0. now rewrite Z.mod_0_l by (pose proof (Z.pow_pos_nonneg 2 (8 * Z.of_nat k)); lia).
  - destruct k as [|k]; [cbn [firstn]; change (2 ^ (8 * Z.of_nat 0)) with 1; now rewrite Z.mod_1_r|]. cbn [firstn]. rewrite !number_cons, IH.
    replace (8 * Z.of_nat (S k)) with (8 + 8 * Z.of_nat k) by lia. rewrite Z.pow_add_r by lia. change (2 ^ 8) with 256.
    pose proof (Z.pow_pos_nonneg 2 (8 * Z.of_nat k) ltac:(lia) ltac:(lia)) as P. set (M := 2 ^ (8 * Z.of_nat k)) in *. clearbody M.
    rewrite Z.rem_mul_r by lia. f_equal; [|f_equal; f_equal].
    + replace (b + 256 * number l) with (b + number l * 256) by lia. rewrite Z.mod_add by lia. symmetry. apply Z.mod_small. lia.
    + replace (b + 256 * number l) with (number l * 256 + b) by lia. rewrite Z.div_add_l by lia. rewrite (Z.div_small b 256) by lia. lia.
Qed.
Lemma are_bytes_skipn l k : are_bytes l -> are_bytes (skipn k l).
Proof. intros F. apply Forall_forall. intros x I. eapply Forall_forall in F; [exact F|]. rewrite <- (firstn_skipn k l). apply in_or_app. now right. Qed.
Lemma are_bytes_zslice l o n : are_bytes l -> are_bytes (zslice l o n).
Proof.
  intros F. apply Forall_forall. intros x I. eapply Forall_forall in F; [exact F|]. unfold zslice in I. unfold ztake, zskip in I.
  rewrite <- (firstn_skipn (Z.to_nat o) l). apply in_or_app. right. rewrite <- (firstn_skipn (Z.to_nat n) (skipn (Z.to_nat o) l)). apply in_or_app. left. exact I.
Qed.
Lemma le_zslice l o n : are_bytes l -> 0 <= o -> 0 <= n -> le (zslice l o n) = number l / 2 ^ (8 * o) mod 2 ^ (8 * n).
Proof.
  intros F O N. rewrite le_number. unfold zslice, ztake, zskip. rewrite number_firstn by now apply are_bytes_skipn. rewrite number_skipn by exact F.
  now rewrite !Z2Nat.id by lia.
Qed.

(** *** 16 and 32 bits *)
Definition right_table (t : fat_type) (fat table : list Z) : Prop := forall i, (i < length table)%nat -> nth_error table i = Some (stored_entry t fat i).
Lemma right_snoc t fat table v : right_table t fat table -> v = stored_entry t fat (length table) -> right_table t fat (table ++ [v]).
Proof.
  intros R -> i I. rewrite app_length in I. cbn in I. destruct (Nat.eq_dec i (length table)) as [->|N].
  - rewrite nth_error_app2 by lia. now rewrite Nat.sub_diag.
  - rewrite nth_error_app1 by lia. apply R. lia.
Qed.
Definition width_of (t : fat_type) : Z := match t with FAT16 => 2 | _ => 4 end.
Lemma parse_words_right t fat : t <> FAT12 -> are_bytes fat -> len fat mod width_of t = 0 ->
  forall fuel table, right_table t fat table -> width_of t * len table <= len fat -> len fat < width_of t * len table + Z.of_nat fuel ->
  exists table', parse_words fuel t fat (len fat) (width_of t) (len table) table = Ok table' /\ right_table t fat table' /\ width_of t * len table' = len fat.
Proof.
  intros T B M. assert (W : 0 < width_of t) by (destruct t; cbn; lia).
  pose proof (Z.div_mod (len fat) (width_of t) ltac:(lia)) as DM. rewrite M, Z.add_0_r in DM.
  induction fuel as [|fuel IH]; intros table R Le Fu; [lia|]. cbn [parse_words].
  destruct (Z.ltb_spec (width_of t * len table) (len fat)) as [X|X]; [|exists table; repeat split; [exact R|lia]].
  pose proof (len_nonneg table) as LT. assert (Y : width_of t * len table + width_of t <= len fat).
  { rewrite DM in X |- *. apply Z.mul_lt_mono_pos_l in X; [|exact W]. nia. }
  assert (Ld : len (zslice fat (width_of t * len table) (width_of t)) = width_of t) by (rewrite len_zslice by nia; lia). rewrite Ld, Z.eqb_refl.
  assert (V : right_table t fat (table ++ [match t with FAT32 => Z.land (le (zslice fat (width_of t * len table) (width_of t))) 268435455 | _ => le (zslice fat (width_of t * len table) (width_of t)) end])).
  { apply right_snoc; [exact R|]. rewrite le_zslice by (try exact B; nia). unfold stored_entry. change (Z.of_nat (length table)) with (len table). destruct t; [congruence| |]; cbn [width_of entry_bits used_bits].
    - replace (8 * (2 * len table)) with (16 * len table) by lia. reflexivity.
    - replace (8 * (4 * len table)) with (32 * len table) by lia. change 268435455 with (Z.ones 28). rewrite Z.land_ones by lia. set (x := number fat / _). clearbody x.
      change (8 * 4) with 32. change (2 ^ 32) with (2 ^ 28 * 2 ^ 4). rewrite Z.rem_mul_r by lia. rewrite (Z.mul_comm (2 ^ 28)), Z.mod_add by lia. now rewrite Z.mod_mod by lia. }
  replace (len table + 1) with (len (table ++ [match t with FAT32 => Z.land (le (zslice fat (width_of t * len table) (width_of t))) 268435455 | _ => le (zslice fat (width_of t * len table) (width_of t)) end])) by (rewrite len_app; reflexivity).
  apply IH; [exact V|rewrite len_app; change (len [_]) with 1; lia|rewrite len_app; change (len [_]) with 1; lia].
Qed.

(** *** 12 bits *)
Lemma stored12 fat c : are_bytes fat -> 0 <= c -> 3 * (c + 1) <= 2 * len fat ->
  (if c mod 2 =? 0 then Z.land (le (ljust2 (zslice fat (3 * c / 2) ((3 * c + 3 + 1) / 2 - 3 * c / 2)))) 4095 else Z.shiftr (le (ljust2 (zslice fat (3 * c / 2) ((3 * c + 3 + 1) / 2 - 3 * c / 2)))) 4)
  = stored_entry FAT12 fat (Z.to_nat c).
Proof.
  intros B C L. pose proof (Z.div_mod c 2 ltac:(lia)) as DM. pose proof (Z.mod_pos_bound c 2 ltac:(lia)) as MB. set (h := c / 2) in *.
  unfold stored_entry. rewrite Z2Nat.id by lia. cbn [entry_bits used_bits].
  assert (J : forall a, 0 <= a -> a + 2 <= len fat -> ljust2 (zslice fat a 2) = zslice fat a 2).
  { intros a A1 A2. assert (H : len (zslice fat a 2) = 2) by (rewrite len_zslice by lia; lia). destruct (zslice fat a 2) as [|x [|y l]]; [discriminate H|discriminate H|reflexivity]. }
  destruct (Z.eqb_spec (c mod 2) 0) as [E|E].
  - replace (3 * c / 2) with (3 * h) by (apply (Z.div_unique _ 2 (3 * h) 0); lia). replace ((3 * c + 3 + 1) / 2) with (3 * h + 2) by (apply (Z.div_unique _ 2 (3 * h + 2) 0); lia).
    replace (3 * h + 2 - 3 * h) with 2 by lia. rewrite J by lia. rewrite le_zslice by (try exact B; lia). replace (8 * (3 * h)) with (12 * c) by lia.
    change 4095 with (Z.ones 12). rewrite Z.land_ones by lia. set (x := number fat / _). clearbody x. change (8 * 2) with 16. change (2 ^ 16) with (2 ^ 12 * 2 ^ 4). rewrite Z.rem_mul_r by lia.
    rewrite (Z.mul_comm (2 ^ 12)), Z.mod_add by lia. now rewrite Z.mod_mod by lia.
  - replace (3 * c / 2) with (3 * h + 1) by (apply (Z.div_unique _ 2 (3 * h + 1) 1); lia). replace ((3 * c + 3 + 1) / 2) with (3 * h + 3) by (apply (Z.div_unique _ 2 (3 * h + 3) 1); lia).
    replace (3 * h + 3 - (3 * h + 1)) with 2 by lia. rewrite J by lia. rewrite le_zslice by (try exact B; lia). rewrite Z.shiftr_div_pow2 by lia.
    replace (12 * c) with (8 * (3 * h + 1) + 4) by lia. rewrite Z.pow_add_r by lia. rewrite <- Z.div_div by (try apply Z.pow_pos_nonneg; lia). set (x := number fat / _). clearbody x.
    change (8 * 2) with (4 + 12). rewrite Z.pow_add_r by lia. rewrite Z.rem_mul_r by lia. rewrite (Z.mul_comm (2 ^ 4)), Z.div_add by lia. rewrite Z.div_small by (apply Z.mod_pos_bound; lia). reflexivity.
Qed.

Definition kept12 (size : Z) : Z := if size mod 3 =? 2 then 2 * size / 3 else 2 * size / 3 - 1.
Lemma parse12_right fat : are_bytes fat -> 2 <= len fat ->
  forall fuel table, right_table FAT12 fat table -> len table <= (if len fat mod 3 =? 2 then 2 * len fat / 3 else if len fat mod 3 =? 0 then 2 * len fat / 3 - 2 else 2 * len fat / 3 - 1) ->
  2 * len fat / 3 + 2 <= len table + Z.of_nat fuel ->
  exists table', parse12 fuel fat (len fat) (2 * len fat / 3) (len table) table = Ok table' /\ right_table FAT12 fat table' /\ len table' = kept12 (len fat).
Proof.
  intros B L0. pose proof (Z.div_mod (len fat) 3 ltac:(lia)) as DM. pose proof (Z.mod_pos_bound (len fat) 3 ltac:(lia)) as MB. set (k := len fat / 3) in *. set (r := len fat mod 3) in *.
  assert (Tot : 2 * len fat / 3 = 2 * k + (if r =? 2 then 1 else 0)).
  { destruct (Z.eqb_spec r 2) as [E|E]; symmetry; [apply (Z.div_unique _ 3 _ 1); lia|]. assert (r = 0 \/ r = 1) as [X|X] by lia; [apply (Z.div_unique _ 3 _ 0); lia|apply (Z.div_unique _ 3 _ 2); lia]. }
  unfold kept12. fold r. rewrite Tot. clear Tot.
  induction fuel as [|fuel IH]; intros table R Le Fu; [exfalso; destruct (r =? 2), (r =? 0); lia|]. pose proof (len_nonneg table) as LT. cbn [parse12].
  set (c := len table) in *. set (total := 2 * k + (if r =? 2 then 1 else 0)) in *.
  assert (Snoc : 3 * (c + 1) <= 2 * len fat -> right_table FAT12 fat (table ++ [if c mod 2 =? 0
      then Z.land (le (ljust2 (zslice fat (3 * c / 2) ((3 * c + 3 + 1) / 2 - 3 * c / 2)))) 4095
      else Z.shiftr (le (ljust2 (zslice fat (3 * c / 2) ((3 * c + 3 + 1) / 2 - 3 * c / 2)))) 4])).
  { intros X. apply right_snoc; [exact R|]. rewrite stored12 by (try exact B; lia). f_equal. unfold c, len. lia. }
  assert (Ls : forall v : Z, len (table ++ [v]) = c + 1) by (intros v; rewrite len_app; reflexivity).
  pose proof (Z.div_mod (3 * c + 3 + 1) 2 ltac:(lia)) as DP. pose proof (Z.mod_pos_bound (3 * c + 3 + 1) 2 ltac:(lia)) as MP. set (past := (3 * c + 3 + 1) / 2) in *.
  destruct (Z.ltb_spec (3 * c) (2 * len fat)) as [X|X].
  2:{ exists table. split; [reflexivity|]. split; [exact R|]. fold c. subst total. destruct (Z.eqb_spec r 2), (Z.eqb_spec r 0); lia. }
  destruct (Z.leb_spec total c) as [Y|Y].
  { exists table. split; [reflexivity|]. split; [exact R|]. fold c. subst total. destruct (Z.eqb_spec r 2), (Z.eqb_spec r 0); lia. }
  assert (Z3 : 3 * (c + 1) <= 2 * len fat) by (subst total; destruct (Z.eqb_spec r 2); lia). specialize (Snoc Z3).
  destruct (Z.eqb_spec past (len fat - 1)) as [P|P].
  - assert (c = total - 2 /\ r = 0 \/ c = total - 1 /\ r = 1) as [(C & Hr)|(C & Hr)].
    { subst total. destruct (Z.eqb_spec r 2) as [E|E]; [exfalso|assert (r = 0 \/ r = 1) as [E2|E2] by lia; [left|right]]; lia. }
    + destruct (Z.eqb_spec total (c + 1)); [lia|]. eexists. split; [reflexivity|]. split; [exact Snoc|]. rewrite Ls. destruct (Z.eqb_spec r 2); lia.
    + destruct (Z.eqb_spec total (c + 1)); [|lia]. exists table. split; [reflexivity|]. split; [exact R|]. fold c. destruct (Z.eqb_spec r 2); lia.
  - match goal with |- context [table ++ [?w]] => specialize (IH (table ++ [w]) Snoc); rewrite Ls in IH end. apply IH; [|lia].
    subst total. destruct (Z.eqb_spec r 2) as [E|E]; [lia|]. destruct (Z.eqb_spec r 0) as [E2|E2]; lia.
Qed.

Lemma parse_fat12 fat : are_bytes fat -> 2 <= len fat -> exists table, parse_fat FAT12 fat = Ok table /\ right_table FAT12 fat table /\ len table = kept12 (len fat).
Proof.
  intros B L. unfold parse_fat. destruct (parse12_right fat B L (S (S (Z.to_nat (2 * len fat / 3)))) []) as (table & E & R & Le).
  - intros i I. cbn in I. lia.
  - change (len []) with 0. pose proof (Z.div_mod (2 * len fat) 3 ltac:(lia)). pose proof (Z.mod_pos_bound (2 * len fat) 3 ltac:(lia)).
    pose proof (Z.div_mod (len fat) 3 ltac:(lia)). pose proof (Z.mod_pos_bound (len fat) 3 ltac:(lia)). destruct (Z.eqb_spec (len fat mod 3) 2), (Z.eqb_spec (len fat mod 3) 0); lia.
  - change (len []) with 0. lia.
  - change (len []) with 0 in E. rewrite E. exists table. split; [|now split]. rewrite Le. unfold kept12. destruct (len fat mod 3 =? 2); rewrite Z.eqb_refl, ?orb_true_r; reflexivity.
Qed.
Lemma parse_fat_words t fat : t <> FAT12 -> are_bytes fat -> len fat mod width_of t = 0 ->
  exists table, parse_fat t fat = Ok table /\ right_table t fat table /\ width_of t * len table = len fat.
Proof.
  intros T B M. destruct (parse_words_right t fat T B M (S (Z.to_nat (len fat))) []) as (table & E & R & Le).
  - intros i I. cbn in I. lia.
  - change (len []) with 0. pose proof (len_nonneg fat). lia.
  - change (len []) with 0. lia.
  - change (len []) with 0 in E. exists table. split; [|now split]. destruct t; [congruence|exact E|exact E].
Qed.

(** ** Boot sectors *)
Lemma field_number image o n v : 0 <= o -> 0 <= n -> o + n <= 512 -> stored_at image o n v -> field (zslice image 0 512) o n = v.
Proof.
  intros O N Le H. unfold field. rewrite zslice_zslice by lia. rewrite Z.add_0_l, le_number. exact H.
Qed.
Lemma field_any image o n : 0 <= o -> 0 <= n -> o + n <= 36 -> field (zslice (zslice image 0 512) 0 36) o n = field (zslice image 0 512) o n.
Proof. intros O N Le. unfold field. rewrite zslice_zslice by lia. now rewrite Z.add_0_l. Qed.
Lemma existsb_in x l : In x l -> existsb (Z.eqb x) l = true.
Proof. intros I. apply existsb_exists. exists x. split; [exact I|apply Z.eqb_refl]. Qed.
Lemma three_bytes image : 512 <= len image -> stored_at image 0 1 235 -> stored_at image 2 1 144 -> exists b, zslice image 0 3 = [235; b; 144].
Proof.
  intros L S0 S2. destruct image as [|x [|y [|z l]]]; try (unfold len in L; cbn [length] in L; lia). exists y. unfold stored_at in *. change (x + 256 * 0 = 235) in S0. change (z + 256 * 0 = 144) in S2. change (zslice (x :: y :: z :: l) 0 3) with [x; y; z]. replace x with 235 by lia. replace z with 144 by lia. reflexivity.
Qed.
Lemma stored_nonneg image o n v : are_bytes image -> stored_at image o n v -> 0 <= v.
Proof. intros B <-. apply number_nonneg. apply (are_bytes_zslice image o n B). Qed.

Lemma parse_boot image b : boot_sector_of image b -> valid_boot b ->
  parse_header image = Ok (let h := mkHeader (zslice image 0 3) (b_bytes_per_sector b) (b_sectors_per_cluster b) (b_reserved b) (b_fats b) (b_root_entries b)
     (b_total16 b) (b_media b) (b_fat_size16 b) (b_total32 b) (if b_fat_size16 b =? 0 then b_fat_size32 b else 0) (if b_fat_size16 b =? 0 then field image 44 4 else 0) in
   mkVolume h (determine_fat_type h 0) (sectors_in_fat b) (sectors_in_root b) (b_reserved b + sectors_in_fat b * b_fats b) (first_data b)).
Proof.
  intros (L & B & J0 & J2 & H1 & H2 & H3 & H4 & H5 & H6 & H7 & H8 & H9 & H10 & Sg) (V1 & V2 & V3 & V4 & V5 & (k & V6) & V7 & V8).
  change (Z.of_nat (length image)) with (len image) in L. unfold parse_header.
  assert (Lb : len (zslice image 0 512) = 512) by (rewrite len_zslice by lia; lia).
  assert (L36 : len (zslice (zslice image 0 512) 0 36) = 36) by (rewrite len_zslice by lia; lia). rewrite L36.
  destruct (Z.ltb_spec 36 36) as [X|_]; [lia|].
  assert (Jm : zslice (zslice image 0 512) 0 3 = zslice image 0 3) by (rewrite zslice_zslice by lia; reflexivity).
  assert (Jm2 : zslice (zslice (zslice image 0 512) 0 36) 0 3 = zslice image 0 3) by (rewrite (zslice_zslice (zslice image 0 512)) by lia; exact Jm).
  unfold parse_bpb. rewrite !field_any, Jm2, Jm by lia.
  rewrite (field_number image 11 2 _ ltac:(lia) ltac:(lia) ltac:(lia) H1), (field_number image 13 1 _ ltac:(lia) ltac:(lia) ltac:(lia) H2), (field_number image 14 2 _ ltac:(lia) ltac:(lia) ltac:(lia) H3),
    (field_number image 16 1 _ ltac:(lia) ltac:(lia) ltac:(lia) H4), (field_number image 17 2 _ ltac:(lia) ltac:(lia) ltac:(lia) H5), (field_number image 19 2 _ ltac:(lia) ltac:(lia) ltac:(lia) H6),
    (field_number image 21 1 _ ltac:(lia) ltac:(lia) ltac:(lia) H7), (field_number image 22 2 _ ltac:(lia) ltac:(lia) ltac:(lia) H8), (field_number image 32 4 _ ltac:(lia) ltac:(lia) ltac:(lia) H9).
  assert (N16 : 0 <= b_fat_size16 b) by (eapply stored_nonneg; eassumption).
  cbn [h_fatsz16 h_root_ent h_bytes_per_sec h_rsvd h_num_fats].
  assert (Ver : verify_bpb (mkHeader (zslice image 0 3) (b_bytes_per_sector b) (b_sectors_per_cluster b) (b_reserved b) (b_fats b) (b_root_entries b)
     (b_total16 b) (b_media b) (b_fat_size16 b) (b_total32 b) 0 0) = Ok tt).
  { unfold verify_bpb. cbn [h_jmp h_bytes_per_sec h_sec_per_clus h_rsvd h_num_fats h_root_ent h_tot16 h_media h_tot32].
    destruct (three_bytes image L J0 J2) as (x & ->). change (235 =? 235) with true. change (144 =? 144) with true. cbn [negb].
    rewrite (existsb_in _ _ V1), (existsb_in _ _ V2), (existsb_in _ _ V5). cbn [negb].
    destruct (Z.eqb_spec (b_reserved b) 0); [lia|]. destruct (Z.ltb_spec (b_fats b) 1); [lia|].
    assert (P : 0 < b_bytes_per_sector b) by (cbn in V1; lia). rewrite V6, Z.mod_mul by lia. cbn [negb Z.eqb]. rewrite andb_false_r.
    destruct (Z.eqb_spec (b_total16 b) 0), (Z.eqb_spec (b_total32 b) 0); cbn [andb]; try reflexivity. lia. }
  rewrite Ver. rewrite Lb.
  assert (G : (512 <? (if negb (0 <? b_fat_size16 b) then 90 else 62)) = false) by (destruct (negb _); reflexivity). rewrite G.
  assert (Sl : zslice image 510 2 = firstn (Z.to_nat 2) (skipn (Z.to_nat 510) image)) by reflexivity.
  assert (Ls : len (zslice image 510 2) = 2) by (rewrite len_zslice by lia; lia). rewrite Ls. change (2 =? 2) with true. cbn [negb].
  rewrite le_number, Sl. unfold stored_at in Sg. rewrite Sg. change (43605 =? 43605) with true. cbn [negb].
  assert (F32 : negb (0 <? b_fat_size16 b) = (b_fat_size16 b =? 0)) by (destruct (Z.ltb_spec 0 (b_fat_size16 b)), (Z.eqb_spec (b_fat_size16 b) 0); (reflexivity || lia)).
  rewrite F32.
  assert (E36 : (if b_fat_size16 b =? 0 then field (zslice image 0 512) 36 4 else 0) = (if b_fat_size16 b =? 0 then b_fat_size32 b else 0)).
  { destruct (Z.eqb_spec (b_fat_size16 b) 0) as [Z0|Z0]; [|reflexivity]. apply field_number; try lia. now apply H10. }
  assert (E44 : (if b_fat_size16 b =? 0 then field (zslice image 0 512) 44 4 else 0) = (if b_fat_size16 b =? 0 then field image 44 4 else 0)).
  { destruct (b_fat_size16 b =? 0); [|reflexivity]. unfold field. now rewrite zslice_zslice by lia. }
  rewrite E36, E44. cbv zeta.
  assert (Fs : forall h, h_fatsz16 h = b_fat_size16 b -> h_fatsz32 h = (if b_fat_size16 b =? 0 then b_fat_size32 b else 0) -> fat_size_count h = sectors_in_fat b).
  { intros h A1 A2. unfold fat_size_count, sectors_in_fat. rewrite A1, A2. now destruct (b_fat_size16 b =? 0). }
  rewrite Fs by reflexivity.
  assert (P : 0 < b_bytes_per_sector b) by (cbn in V1; lia).
  assert (Rs : (b_root_entries b * 32 + (b_bytes_per_sector b - 1)) / b_bytes_per_sector b = sectors_in_root b).
  { unfold sectors_in_root. rewrite V6, Z.div_mul by lia. rewrite Z.div_add_l by lia. rewrite (Z.div_small (b_bytes_per_sector b - 1)) by lia. lia. }
  rewrite Rs. reflexivity.
Qed.

Lemma type_right image b h : valid_boot b -> boot_sector_of image b -> (b_fat_size16 b = 0 <-> type_of b = FAT32) ->
  (type_of b = FAT12 -> (sectors_in_all b - (b_reserved b + b_fats b * sectors_in_fat b)) / b_sectors_per_cluster b < 4085) ->
  h_sec_per_clus h = b_sectors_per_cluster b -> h_rsvd h = b_reserved b -> h_num_fats h = b_fats b -> h_tot16 h = b_total16 b -> h_tot32 h = b_total32 b ->
  h_fatsz16 h = b_fat_size16 b -> h_fatsz32 h = (if b_fat_size16 b =? 0 then b_fat_size32 b else 0) -> determine_fat_type h 0 = type_of b.
Proof.
  intros (V1 & V2 & V3 & V4 & V5 & (k & V6) & V7 & V8) Bs C32 C12 E1 E2 E3 E4 E5 E6 E7. unfold determine_fat_type.
  assert (Fs : fat_size_count h = sectors_in_fat b) by (unfold fat_size_count, sectors_in_fat; rewrite E6, E7; now destruct (b_fat_size16 b =? 0)).
  assert (Ts : total_sectors h = sectors_in_all b) by (unfold total_sectors, sectors_in_all; now rewrite E4, E5).
  rewrite Fs, Ts, E1, E2, E3, E6, E7. rewrite Z.add_0_r. set (n := (sectors_in_all b - _) / _) in *.
  assert (S0 : 0 < b_sectors_per_cluster b) by (cbn in V2; lia). assert (P : 0 < b_bytes_per_sector b) by (cbn in V1; lia).
  assert (R0 : 0 <= sectors_in_root b).
  { unfold sectors_in_root. apply Z.div_pos; [|exact P]. destruct Bs as (_ & B & _ & _ & _ & _ & _ & _ & H5 & _). pose proof (stored_nonneg _ _ _ _ B H5). lia. }
  assert (Le : cluster_count b <= n) by (unfold cluster_count, n, first_data; apply Z.div_le_mono; lia).
  destruct (Z.eqb_spec (b_fat_size16 b) 0) as [Z0|Z0].
  - destruct V8 as [V8|V8]; [congruence|]. destruct (Z.eqb_spec (b_fat_size32 b) 0); [congruence|]. cbn [negb]. symmetry. now apply C32.
  - assert (T : type_of b <> FAT32) by (intros X; apply Z0; now apply C32). unfold type_of in *.
    destruct (Z.ltb_spec (cluster_count b) 4085) as [X|X].
    + specialize (C12 eq_refl). destruct (Z.leb_spec 4085 n); [lia|reflexivity].
    + destruct (Z.ltb_spec (cluster_count b) 65525) as [Y|Y]; [|congruence]. destruct (Z.leb_spec 4085 n); [reflexivity|lia].
Qed.

Lemma right_entries t fat table : right_table t fat table -> table = entries t fat (len table).
Proof.
  intros R. unfold entries, len. rewrite Nat2Z.id. apply nth_ext with (d := 0) (d' := stored_entry t fat 0); [now rewrite map_length, seq_length|].
  intros i I. rewrite map_nth. rewrite seq_nth by exact I. cbn [Nat.add]. apply nth_error_nth. now apply R.
Qed.
Lemma parse_entries t fat : are_bytes fat -> 512 <= len fat -> len fat mod 4 = 0 ->
  parse_fat t fat = Ok (entries t fat (entries_in t fat - match t with FAT12 => if len fat mod 3 =? 2 then 0 else 1 | _ => 0 end)).
Proof.
  intros B L M. unfold entries_in. change (Z.of_nat (length fat)) with (len fat). pose proof (Z.div_mod (len fat) 4 ltac:(lia)) as DM. set (q := len fat / 4) in *. rewrite M, Z.add_0_r in DM. destruct t.
  - destruct (parse_fat12 fat B ltac:(lia)) as (table & E & R & Le). rewrite E. f_equal. rewrite (right_entries _ _ _ R) at 1. f_equal. rewrite Le. unfold kept12. cbn [entry_bits].
    assert (X : 8 * len fat / 12 = 2 * len fat / 3) by (change 12 with (4 * 3); replace (8 * len fat) with (4 * (2 * len fat)) by lia; apply Z.div_mul_cancel_l; lia).
    rewrite X. destruct (len fat mod 3 =? 2); lia.
  - destruct (parse_fat_words FAT16 fat ltac:(discriminate) B) as (table & E & R & Le); cbn [width_of] in *.
    { rewrite DM. replace (4 * q) with (2 * q * 2) by lia. apply Z.mod_mul. lia. }
    rewrite E. f_equal. rewrite (right_entries _ _ _ R) at 1. f_equal. cbn [entry_bits]. replace (8 * len fat) with (len table * 16) by lia. rewrite Z.div_mul by lia. lia.
  - destruct (parse_fat_words FAT32 fat ltac:(discriminate) B) as (table & E & R & Le); cbn [width_of] in *; [exact M|].
    rewrite E. f_equal. rewrite (right_entries _ _ _ R) at 1. f_equal. cbn [entry_bits]. replace (8 * len fat) with (len table * 32) by lia. rewrite Z.div_mul by lia. lia.
Qed.

Lemma run_file {A} (read_cluster : Z -> list A) t table bpc first content calls : 0 < bpc -> holds_file read_cluster t table bpc first content ->
  capped_no_negative content 0 calls -> fat_run read_cluster t table bpc first (Z.of_nat (length content)) (fat_open first) calls = capped_run content 0 calls.
Proof.
  intros P [->|(rest & slack & L & F & D)] N.
  - apply (run_at read_cluster t table bpc first [] P [] ltac:(congruence) ltac:(congruence) ltac:(intros c []) [] eq_refl); [|exact N].
    apply (open_at read_cluster bpc first [] P []); [congruence|intros c []].
  - apply (run_at read_cluster t table bpc first content P (first :: rest) ltac:(reflexivity) ltac:(intros _; exact L) F slack D); [|exact N].
    apply (open_at read_cluster bpc first content P (first :: rest)); [reflexivity|exact F].
Qed.
