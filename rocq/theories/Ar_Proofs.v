From Coq Require Import Ascii String.
From Verif Require Import PyBase PyStr PyInt FileInfo Ar_Model Ar_Spec.
Local Open Scope Z_scope.

(** ** Slices *)
Lemma zslice_mid {A} (a b c : list A) : zslice (a ++ b ++ c) (len a) (len b) = b.
Proof.
  unfold zslice. rewrite zskip_app_ge by lia. rewrite Z.sub_diag, zskip_0. unfold ztake, len. rewrite Nat2Z.id.
  rewrite firstn_app, Nat.sub_diag, firstn_all. cbn. apply app_nil_r.
Qed.
Lemma zslice_at {A} (a b c : list A) o n : o = len a -> n = len b -> zslice (a ++ b ++ c) o n = b.
Proof. intros -> ->. apply zslice_mid. Qed.
Lemma zslice_past {A} (a : list A) n : zslice a (len a) n = [].
Proof. apply zslice_nil_ge. lia. Qed.

Lemma len_repeat {A} (c : A) n : len (repeat c n) = Z.of_nat n.
Proof. unfold len. now rewrite repeat_length. Qed.

(** ** Numbers *)
Lemma digit_char d : 0 <= d < 10 -> is_digit (ascii_of_nat (Z.to_nat (48 + d))) = true /\ digit_value (ascii_of_nat (Z.to_nat (48 + d))) = d.
Proof.
  intros H. unfold is_digit, digit_value. rewrite nat_ascii_embedding by lia. split; [|lia].
  apply andb_true_iff. split; apply Nat.leb_le; lia.
Qed.

Lemma digit_value_range c : is_digit c = true -> 0 <= digit_value c <= 9.
Proof. unfold is_digit, digit_value. intros H. apply andb_true_iff in H as [H1 H2]. apply Nat.leb_le in H1, H2. lia. Qed.

Lemma denotes_spec b ds n : b <= 10 -> denotes b ds n ->
  Forall (fun c => is_digit c = true) ds /\ forallb (fun c => digit_value c <? b) ds = true /\
  fold_left (fun acc c => acc * b + digit_value c) ds 0 = n.
Proof.
  intros Hb. induction 1 as [|ds n d _ (F & B & V) Hd]; [auto|].
  destruct (digit_char d ltac:(lia)) as [D1 D2]. split; [|split].
  - apply Forall_app. split; [exact F|]. constructor; [exact D1|constructor].
  - rewrite forallb_app, B. cbn [forallb andb]. rewrite D2. now rewrite (proj2 (Z.ltb_lt d b)) by lia.
  - rewrite fold_left_app. cbn [fold_left]. now rewrite V, D2.
Qed.

Lemma take_digits_pad ds n : Forall (fun c => is_digit c = true) ds -> take_digits (ds ++ repeat " "%char n) = (ds, repeat " "%char n).
Proof.
  induction 1 as [|c ds H _ IH]; cbn [app].
  - destruct n; reflexivity.
  - cbn [take_digits]. now rewrite H, IH.
Qed.

Lemma spaces_ok n : forallb (fun c => char_eqb c space) (repeat " "%char n) = true.
Proof. induction n; [reflexivity|]. exact IHn. Qed.

Lemma parse_int_number b default w ds n : b <= 10 -> number b default w ds n -> parse_int b default (pad w ds) = Ok n.
Proof.
  intros Hb [L H]. unfold parse_int, pad.
  assert (Forall (fun c => is_digit c = true) ds) as F.
  { destruct H as [[-> _]|[_ D]]; [constructor|]. now destruct (denotes_spec b ds n Hb D). }
  rewrite take_digits_pad by exact F. rewrite spaces_ok. destruct H as [[-> ->]|[N D]]; [reflexivity|].
  destruct (denotes_spec b ds n Hb D) as (_ & B & V). destruct ds as [|c ds]; [congruence|]. now rewrite B, V.
Qed.

Lemma take_digits_digits s : Forall (fun c => is_digit c = true) (fst (take_digits s)).
Proof.
  induction s as [|c s IH]; [constructor|]. cbn. destruct (is_digit c) eqn:E; [|constructor].
  destruct (take_digits s) as [d t]. cbn in *. now constructor.
Qed.

Lemma parse_int_nonneg b default s n : 0 <= b -> 0 <= default -> parse_int b default s = Ok n -> 0 <= n.
Proof.
  intros Hb Hd. unfold parse_int. pose proof (take_digits_digits s) as F. destruct (take_digits s) as [ds rest]. cbn [fst] in F.
  destruct (forallb _ rest); [|discriminate]. destruct ds as [|c ds]; [intros [= <-]; exact Hd|]. destruct (forallb _ (c :: ds)); [|discriminate].
  intros [= <-]. assert (forall l acc, Forall (fun c => is_digit c = true) l -> 0 <= acc -> 0 <= fold_left (fun acc c => acc * b + digit_value c) l acc) as G.
  { induction l as [|x l IH]; intros acc Fl Ha; [exact Ha|]. inversion Fl; subst. cbn [fold_left]. apply IH; [assumption|].
    pose proof (digit_value_range x ltac:(assumption)). nia. }
  apply (G (c :: ds) 0); [exact F|lia].
Qed.

(** ** Headers *)
Lemma len_pad w s : (length s <= w)%nat -> len (pad w s) = Z.of_nat w.
Proof. intros H. unfold len, pad. rewrite app_length, repeat_length. lia. Qed.

Lemma len_head name mtime uid gid mode size :
  (length name <= 16)%nat -> (length mtime <= 12)%nat -> (length uid <= 6)%nat -> (length gid <= 6)%nat -> (length mode <= 8)%nat -> (length size <= 10)%nat ->
  len (head name mtime uid gid mode size) = 60.
Proof. intros. unfold head. rewrite !len_app, !len_pad by assumption. reflexivity. Qed.

Lemma lstrip2_skip c n s : c = " "%char \/ c = "000"%char -> lstrip2 space nul (repeat c n ++ s) = lstrip2 space nul s.
Proof. intros [->|E]; [|subst c]; (induction n as [|n IH]; [reflexivity|exact IH]). Qed.
Lemma lstrip2_id s : (forall r, s <> " "%char :: r) -> (forall r, s <> "000"%char :: r) -> lstrip2 space nul s = s.
Proof.
  intros H1 H2. destruct s as [|c s]; [reflexivity|]. cbn [lstrip2]. destruct (char_eqb_spec c space) as [->|]; [exfalso; exact (H1 s eq_refl)|].
  destruct (char_eqb_spec c nul) as [->|]; [exfalso; exact (H2 s eq_refl)|]. reflexivity.
Qed.

Lemma rev_repeat_chars {X} (c : X) n : rev (repeat c n) = repeat c n.
Proof.
  induction n as [|n IH]; [reflexivity|]. cbn [repeat rev]. rewrite IH. clear. induction n as [|n IH]; [reflexivity|]. cbn in *. now rewrite IH.
Qed.

Lemma rstrip2_pad w s k : (forall r, s <> r ++ [" "%char]) -> (forall r, s <> r ++ ["000"%char]) ->
  rstrip2 space nul (pad w (s ++ repeat "000"%char k)) = s.
Proof.
  intros H1 H2. unfold rstrip2, pad. rewrite !rev_app_distr, !rev_repeat_chars, !lstrip2_skip by auto. rewrite lstrip2_id.
  - apply rev_involutive.
  - intros r E. apply (f_equal (@rev _)) in E. rewrite rev_involutive in E. cbn in E. exact (H1 _ E).
  - intros r E. apply (f_equal (@rev _)) in E. rewrite rev_involutive in E. cbn in E. exact (H2 _ E).
Qed.

Lemma parse_head name k m : (length name + k <= 16)%nat -> (forall r, name <> r ++ [" "%char]) -> (forall r, name <> r ++ ["000"%char]) -> meta_ok m ->
  parse_header (head_of (name ++ repeat "000"%char k) m) = Ok (mkHeader name (v_mtime m) (v_uid m) (v_gid m) (Z.lor (v_mode m) S_IFREG) (v_size m)).
Proof.
  intros Ln N1 N2 (M1 & M2 & M3 & M4 & M5). unfold head_of.
  assert (len (pad 16 (name ++ repeat "000"%char k)) = 16) as P0 by (apply (len_pad 16); rewrite app_length, repeat_length; lia). pose proof (len_pad 12 _ (proj1 M1)) as P1. pose proof (len_pad 6 _ (proj1 M2)) as P2.
  pose proof (len_pad 6 _ (proj1 M3)) as P3. pose proof (len_pad 8 _ (proj1 M4)) as P4. pose proof (len_pad 10 _ (proj1 M5)) as P5.
  unfold parse_header, head.
  set (f0 := pad 16 (name ++ repeat "000"%char k)) in *. set (f1 := pad 12 (d_mtime m)) in *. set (f2 := pad 6 (d_uid m)) in *. set (f3 := pad 6 (d_gid m)) in *.
  set (f4 := pad 8 (d_mode m)) in *. set (f5 := pad 10 (d_size m)) in *.
  assert (forall e : str, zslice (f0 ++ f1 ++ f2 ++ f3 ++ f4 ++ f5 ++ e) 16 12 = f1 /\ zslice (f0 ++ f1 ++ f2 ++ f3 ++ f4 ++ f5 ++ e) 28 6 = f2 /\
    zslice (f0 ++ f1 ++ f2 ++ f3 ++ f4 ++ f5 ++ e) 34 6 = f3 /\ zslice (f0 ++ f1 ++ f2 ++ f3 ++ f4 ++ f5 ++ e) 40 8 = f4 /\
    zslice (f0 ++ f1 ++ f2 ++ f3 ++ f4 ++ f5 ++ e) 48 10 = f5 /\ zslice (f0 ++ f1 ++ f2 ++ f3 ++ f4 ++ f5 ++ e) 0 16 = f0) as S.
  { intros e. repeat apply conj.
    - apply zslice_at; [rewrite P0|rewrite P1]; reflexivity.
    - rewrite app_assoc. apply zslice_at; [rewrite len_app, P0, P1|rewrite P2]; reflexivity.
    - rewrite (app_assoc f0), (app_assoc (f0 ++ f1)). apply zslice_at; [rewrite !len_app, P0, P1, P2|rewrite P3]; reflexivity.
    - rewrite (app_assoc f0), (app_assoc (f0 ++ f1)), (app_assoc ((f0 ++ f1) ++ f2)). apply zslice_at; [rewrite !len_app, P0, P1, P2, P3|rewrite P4]; reflexivity.
    - rewrite (app_assoc f0), (app_assoc (f0 ++ f1)), (app_assoc ((f0 ++ f1) ++ f2)), (app_assoc (((f0 ++ f1) ++ f2) ++ f3)).
      apply zslice_at; [rewrite !len_app, P0, P1, P2, P3, P4|rewrite P5]; reflexivity.
    - apply (zslice_at []); [reflexivity|now rewrite P0]. }
  assert (zslice (f0 ++ f1 ++ f2 ++ f3 ++ f4 ++ f5 ++ ["`"%char; "010"%char]) 58 2 = ["`"%char; "010"%char]) as E.
  { rewrite (app_assoc f0), (app_assoc (f0 ++ f1)), (app_assoc ((f0 ++ f1) ++ f2)), (app_assoc (((f0 ++ f1) ++ f2) ++ f3)), (app_assoc ((((f0 ++ f1) ++ f2) ++ f3) ++ f4)).
    rewrite <- (app_nil_r ["`"%char; "010"%char]) at 1. apply zslice_at; [rewrite !len_app, P0, P1, P2, P3, P4, P5|]; reflexivity. }
  rewrite E. change (str_eqb ["`"%char; "010"%char] ["`"%char; newline]) with true. cbn iota.
  destruct (S ["`"%char; "010"%char]) as (-> & -> & -> & -> & -> & ->).
  unfold f0, f1, f2, f3, f4, f5. rewrite !parse_int_number with (n := v_mtime m) by (lia || assumption).
  rewrite (parse_int_number 10 0 6 _ (v_uid m)) by (lia || assumption). rewrite (parse_int_number 10 0 6 _ (v_gid m)) by (lia || assumption).
  rewrite (parse_int_number 8 432 8 _ (v_mode m)) by (lia || assumption). rewrite (parse_int_number 10 0 10 _ (v_size m)) by (lia || assumption).
  now rewrite rstrip2_pad.
Qed.

Lemma len_head_of name m : (length name <= 16)%nat -> meta_ok m -> len (head_of name m) = 60.
Proof. intros L (M1 & M2 & M3 & M4 & M5). apply len_head; [exact L|apply M1|apply M2|apply M3|apply M4|apply M5]. Qed.

(** ** The table of names *)
Lemma table_of_cons n ns filler : table_of (n :: ns) filler = n ++ "/"%char :: "010"%char :: table_of ns filler.
Proof. unfold table_of. cbn [map concat]. now rewrite <- !app_assoc. Qed.

Lemma split_table_name n t : ~ In "010"%char n -> split_table (n ++ "/"%char :: "010"%char :: t) = n :: split_table t.
Proof.
  induction n as [|c n IH]; intros N; [reflexivity|]. cbn [app].
  assert (~ In "010"%char n) as N2 by (intros I; apply N; now right). specialize (IH N2).
  remember (n ++ "/"%char :: "010"%char :: t) as r eqn:Er. cbn [split_table]. rewrite IH.
  destruct r as [|d r]; [destruct n; discriminate|].
  destruct (char_eqb_spec d newline) as [->|Nd]; [|rewrite andb_false_r; reflexivity].
  exfalso. destruct n as [|x n]; cbn in Er; [discriminate|]. injection Er as <- _. apply N2. now left.
Qed.

Lemma split_table_of ns filler : Forall (fun n => ~ In "010"%char n) ns -> filler = [] \/ filler = ["010"%char] ->
  split_table (table_of ns filler) = ns ++ [filler].
Proof.
  intros F H. induction F as [|n ns Hn _ IH]; [destruct H as [->|E]; [reflexivity|subst; reflexivity]|].
  rewrite table_of_cons, split_table_name by exact Hn. now rewrite IH.
Qed.

Lemma table_names_of m ns filler : Forall (fun n => ~ In "010"%char n) ns ->
  filler = [] \/ filler = ["010"%char] /\ len (table_of ns filler) mod 2 = 0 -> v_size m = len (table_of ns filler) ->
  exists tail, table_names (v_size m) (table_of ns filler) = ns ++ tail /\ (tail = [] \/ tail = [[]]).
Proof.
  intros F H S. unfold table_names. rewrite split_table_of by (exact F || tauto). cbv zeta.
  destruct H as [->|[-> E]].
  - exists [[]]. split; [|now right]. rewrite last_last. destruct (v_size m mod 2 =? 0); cbn [andb]; [|reflexivity]. now destruct (ns ++ [[]]).
  - exists []. split; [|now left]. rewrite S, E. cbn [andb Z.eqb]. rewrite last_last, removelast_last.
    destruct (ns ++ [["010"%char]]) eqn:X; [destruct ns; discriminate|]. cbn. now rewrite app_nil_r.
Qed.

Lemma until_end_name n t : ~ In "010"%char n -> until_end (n ++ "/"%char :: "010"%char :: t) = Some n.
Proof.
  induction n as [|c n IH]; intros N; [reflexivity|]. cbn [app].
  assert (~ In "010"%char n) as N2 by (intros I; apply N; now right). specialize (IH N2).
  remember (n ++ "/"%char :: "010"%char :: t) as r eqn:Er. cbn [until_end]. rewrite IH.
  destruct r as [|d r]; [destruct n; discriminate|].
  destruct (char_eqb_spec d newline) as [->|Nd]; [|rewrite andb_false_r; reflexivity].
  exfalso. destruct n as [|x n]; cbn in Er; [discriminate|]. injection Er as <- _. apply N2. now left.
Qed.

Lemma table_of_app a b filler : table_of (a ++ b) filler = table_of a [] ++ table_of b filler.
Proof. unfold table_of. rewrite map_app, concat_app, app_nil_r. now rewrite app_assoc. Qed.

(** ** Names *)
Lemma get_long_plain thin long n : (forall r, n <> "/"%char :: r) -> get_long_file_name thin long n = n.
Proof.
  intros H. destruct n as [|c n]; [reflexivity|]. cbn [get_long_file_name].
  destruct (char_eqb_spec c slash) as [->|]; [exfalso; exact (H n eq_refl)|]. reflexivity.
Qed.

Lemma strip_nul n : (forall r, n <> "000"%char :: r) -> (forall r, n <> r ++ ["000"%char]) -> strip nul n = n.
Proof.
  intros H1 H2. unfold strip, rstrip. assert (lstrip nul n = n) as ->.
  { destruct n as [|c n]; [reflexivity|]. apply lstrip_id. intros ->. exact (H1 n eq_refl). }
  assert (lstrip nul (rev n) = rev n) as ->.
  { destruct (rev n) as [|c r] eqn:E; [reflexivity|]. apply lstrip_id. intros ->. apply (f_equal (@rev _)) in E. rewrite rev_involutive in E. exact (H2 _ E). }
  apply rev_involutive.
Qed.

Lemma strip_nuls n k : (forall r, n <> "000"%char :: r) -> (forall r, n <> r ++ ["000"%char]) -> strip nul (n ++ repeat "000"%char k) = n.
Proof.
  intros H1 H2. rewrite <- (strip_nul n H1 H2) at 2. unfold strip.
  assert (lstrip nul (n ++ repeat "000"%char k) = lstrip nul n ++ repeat "000"%char k \/ n = [] ) as [->| ->].
  { destruct n as [|c n]; [now right|left]. cbn [app]. assert (c <> nul) as Nc by (intros ->; exact (H1 n eq_refl)).
    rewrite !(lstrip_id nul c) by exact Nc. reflexivity. }
  - induction k as [|k IH]; [now rewrite app_nil_r|]. replace (repeat "000"%char (S k)) with (repeat "000"%char k ++ ["000"%char]).
    + rewrite app_assoc. change "000"%char with nul. rewrite rstrip_snoc_sep. exact IH.
    + clear. induction k as [|k IH]; [reflexivity|]. cbn in *. now rewrite IH.
  - cbn [app]. assert (lstrip nul (repeat "000"%char k) = []) as ->; [|reflexivity].
    apply lstrip_nil_iff. clear. induction k; constructor; auto.
Qed.

Lemma digits_of_nonneg z : 0 <= z -> py_str z <> [] /\ forallb is_digit (py_str z) = true.
Proof.
  intros H. destruct (nonneg_chars z H) as [N F]. split; [exact N|]. apply forallb_forall. now apply Forall_forall.
Qed.

Lemma get_long_number thin long z : 0 <= z -> get_long_file_name thin long ("/"%char :: py_str z) =
  match long with
  | ListNames l => if negb thin then nth (Z.to_nat z) l ("/"%char :: py_str z) else "/"%char :: py_str z
  | ByteNames t => if thin && (z <? len t) then match until_end (zskip z t) with Some n => n | None => "/"%char :: py_str z end else "/"%char :: py_str z
  | NoNames => "/"%char :: py_str z
  end.
Proof.
  intros H. destruct (digits_of_nonneg z H) as [N F]. cbn [get_long_file_name]. change (char_eqb "/" slash) with true. cbn [andb].
  destruct (str_eqb_spec (py_str z) []); [contradiction|]. rewrite F. cbn [negb andb]. now rewrite py_int_str.
Qed.

Lemma py_str_end z c : is_digit c = false -> c <> "-"%char -> forall p r, p ++ py_str z <> r ++ [c].
Proof.
  intros D M p r E. destruct (py_str z) as [|x l] eqn:X using rev_ind; [now apply (py_str_nonempty z)|].
  clear IHl. rewrite app_assoc in E. apply app_inj_tail in E as [_ ->].
  destruct (py_str_char z c) as [I|I]; [rewrite X; apply in_or_app; right; now left|congruence|congruence].
Qed.

(** ** The loop on well-formed archives *)
Lemma loop_head_nuls k f pre name m rest thin files long :
  (length name + k <= 16)%nat -> (forall r, name <> r ++ [" "%char]) -> (forall r, name <> r ++ ["000"%char]) -> meta_ok m ->
  parse_loop (S f) (pre ++ head_of (name ++ repeat "000"%char k) m ++ rest) thin (len pre) files long =
  (let data := pre ++ head_of (name ++ repeat "000"%char k) m ++ rest in
   let offset := len pre + 60 in
   let size := v_size m in
   if str_eqb name $"/" then parse_loop f data thin (offset + size + size mod 2) files long
   else if str_eqb name $"//"
   then let table := zslice data offset size in
        let long' := if thin then ByteNames table else ListNames (table_names size table) in
        let pos' := offset + len table + (if thin then 0 else size mod 2) in
        parse_loop f data thin pos' (map (rename thin long') files) long'
   else match bsd_name data offset name with
        | Err e => Err e
        | Ok (name, n) =>
            let named := if truthy long && negb thin then get_long_file_name thin long name else name in
            let link := if truthy long && thin then get_long_file_name thin long name else [] in
            let mode := if thin then Z.lor (Z.lor (v_mode m) S_IFREG) S_IFLNK else Z.lor (v_mode m) S_IFREG in
            let info := mkAr (len pre) (offset + n) (strip nul named) (v_mtime m) (v_uid m) (v_gid m) mode (size - n) link (truthy long && thin) in
            parse_loop f data thin (if thin then offset else offset + size + size mod 2) (files ++ [info]) long
        end).
Proof.
  intros L N1 N2 M. cbn [parse_loop].
  assert (len (head_of (name ++ repeat "000"%char k) m) = 60) as Lh by (apply len_head_of; [rewrite app_length, repeat_length; lia|exact M]).
  rewrite (zslice_at pre (head_of (name ++ repeat "000"%char k) m) rest (len pre) 60 eq_refl (eq_sym Lh)). rewrite Lh. cbn [Z.eqb Z.ltb Z.compare Pos.compare Pos.compare_cont].
  rewrite (parse_head name k m L N1 N2 M). reflexivity.
Qed.

Lemma loop_head f pre name m rest thin files long :
  (length name <= 16)%nat -> (forall r, name <> r ++ [" "%char]) -> (forall r, name <> r ++ ["000"%char]) -> meta_ok m ->
  parse_loop (S f) (pre ++ head_of name m ++ rest) thin (len pre) files long =
  (let data := pre ++ head_of name m ++ rest in
   let offset := len pre + 60 in
   let size := v_size m in
   if str_eqb name $"/" then parse_loop f data thin (offset + size + size mod 2) files long
   else if str_eqb name $"//"
   then let table := zslice data offset size in
        let long' := if thin then ByteNames table else ListNames (table_names size table) in
        let pos' := offset + len table + (if thin then 0 else size mod 2) in
        parse_loop f data thin pos' (map (rename thin long') files) long'
   else match bsd_name data offset name with
        | Err e => Err e
        | Ok (name, n) =>
            let named := if truthy long && negb thin then get_long_file_name thin long name else name in
            let link := if truthy long && thin then get_long_file_name thin long name else [] in
            let mode := if thin then Z.lor (Z.lor (v_mode m) S_IFREG) S_IFLNK else Z.lor (v_mode m) S_IFREG in
            let info := mkAr (len pre) (offset + n) (strip nul named) (v_mtime m) (v_uid m) (v_gid m) mode (size - n) link (truthy long && thin) in
            parse_loop f data thin (if thin then offset else offset + size + size mod 2) (files ++ [info]) long
        end).
Proof.
  intros L N1 N2 M. pose proof (loop_head_nuls 0 f pre name m rest thin files long ltac:(lia) N1 N2 M) as H. cbn [repeat] in H. rewrite !app_nil_r in H. exact H.
Qed.


Lemma rename_plain long files : Forall (fun f => forall r, a_name f <> "/"%char :: r) files -> map (rename false long) files = files.
Proof.
  induction 1 as [|f files H _ IH]; [reflexivity|]. cbn [map]. rewrite IH. f_equal. unfold rename. rewrite get_long_plain by exact H. now destruct f.
Qed.

(** The name a file has so far: that of a GNU member is only known after the table. *)
Definition known (seen : bool) (m : member) : str :=
  match m_style m with Gnu before => if seen then m_name m else "/"%char :: py_str (len (table_of before [])) | _ => m_name m end.
Definition is_gnu (m : member) : Prop := match m_style m with Gnu _ => True | _ => False end.

(** How the names found so far stand for the table. *)
Definition long_ok (table : option (list str)) (seen : bool) (long : names) : Prop :=
  if seen then exists ns tail, table = Some ns /\ long = ListNames (ns ++ tail) else long = NoNames.

Definition first_member (table : option (list str)) (m : member) : Prop :=
  plain (m_name m) /\ match m_style m with Gnu before => before = [] /\ exists after, table = Some (m_name m :: after) | _ => True end.

Lemma rename_known table data ns tail seen done files : table = Some ns -> Forall (first_member table) done ->
  Forall2 (fun m f => describes_as (known seen m) data m f) done files ->
  Forall2 (fun m f => describes_as (known true m) data m f) done (map (rename false (ListNames (ns ++ tail))) files).
Proof.
  intros Et F D. induction D as [|m f done files (D1 & D2) _ IH]; [constructor|]. inversion F as [|m' done' (P & G) F']; subst m' done'.
  cbn [map]. constructor; [|now apply IH]. unfold rename. split; [|exact D2]. cbn [a_name]. rewrite D1. unfold known.
  destruct P as (_ & _ & P3). destruct (m_style m) as [nuls|nuls|before]; [now apply get_long_plain|now apply get_long_plain|].
  destruct G as [-> (after & Ea)]. destruct seen; [now apply get_long_plain|].
  change (table_of [] []) with (@nil ascii). change (len (@nil ascii)) with 0. rewrite get_long_number by lia. cbn [negb Z.to_nat].
  assert (ns = m_name m :: after) as -> by congruence. reflexivity.
Qed.

Lemma known_seen m : known true m = m_name m.
Proof. unfold known. now destruct (m_style m). Qed.

Lemma loop_parts junk ps : forall fuel pre done files long table seen, (length ps < fuel)%nat -> len junk < 60 ->
  parts_ok table ps -> first_names ps -> long_ok table seen long -> Forall (first_member table) done ->
  (seen = true \/ table = None \/ has_table ps) ->
  Forall2 (fun m f => describes_as (known seen m) (pre ++ concat (map write_part ps) ++ junk) m f) done files ->
  match junk with
  | [] => exists out, parse_loop fuel (pre ++ concat (map write_part ps) ++ junk) false (len pre) files long = Ok out /\
                      Forall2 (describes (pre ++ concat (map write_part ps) ++ junk)) (done ++ members ps) out
  | _ => parse_loop fuel (pre ++ concat (map write_part ps) ++ junk) false (len pre) files long = Err RatarmountError
  end.
Proof.
  induction ps as [|p ps IH]; intros fuel pre done files long table seen Lf Lj Ok1 Fn Lo Fm Ht Dn.
  - destruct fuel as [|f]; [cbn in Lf; lia|]. cbn [map concat parse_loop app] in *.
    assert (zslice (pre ++ junk) (len pre) 60 = junk) as ->.
    { unfold zslice. rewrite zskip_app_ge by lia. rewrite Z.sub_diag, zskip_0. apply ztake_all. lia. }
    destruct junk as [|j junk]; [cbn; exists files; split; [reflexivity|]|].
    + rewrite app_nil_r in *. cbn [members flat_map]. rewrite app_nil_r.
      assert (forall m, In m done -> known seen m = m_name m) as K.
      { intros m I. destruct Ht as [->|[->|(m' & ns & fi & fl & [])]]; [apply known_seen|]. rewrite Forall_forall in Fm. destruct (Fm m I) as [_ G].
        unfold known. destruct (m_style m); [reflexivity|reflexivity|]. destruct G as [_ (a & E)]. discriminate. }
      clear -Dn K. induction Dn as [|m f done files D _ IHn]; constructor; [|apply IHn; intros x I; apply K; now right].
      unfold describes. rewrite <- (K m (or_introl eq_refl)). exact D.
    + destruct (Z.eqb_spec (len (j :: junk)) 0) as [E|_]; [rewrite len_cons in E; pose proof (len_nonneg junk); lia|].
      now rewrite (proj2 (Z.ltb_lt _ 60)).
  - destruct fuel as [|f]; [cbn in Lf; lia|]. cbn [length] in Lf. cbn [map concat] in *.
    inversion Fn as [|p' ps' Fp Fps]; subst p' ps'. destruct p as [m c fill|m ns filler fill|mb]; cbn [write_part parts_ok] in *.
    + destruct Ok1 as (M & (Sz & Fill) & Ok1). rewrite <- !app_assoc in *.
      rewrite loop_head by (try exact M; try (cbn; lia); intros r E; destruct r as [|x [|y r]]; discriminate).
      cbv zeta. change (str_eqb $"/" $"/") with true. cbn iota.
      assert (len pre + 60 + v_size m + v_size m mod 2 = len (pre ++ head_of $"/" m ++ c ++ fill)) as ->.
      { rewrite !len_app, Sz, Fill, len_head_of by (try exact M; cbn; lia). lia. }
      specialize (IH f (pre ++ head_of $"/" m ++ c ++ fill) done files long table seen). rewrite <- !app_assoc in IH.
      apply IH; try assumption; [lia|]. destruct Ht as [Ht|[Ht|(m' & ns & fi & fl & [E|I])]]; [auto|auto|discriminate|].
      right. right. now exists m', ns, fi, fl.
    + destruct Ok1 as (M & Et & (Sz & Fill) & Hf & Hn & Ok1). rewrite <- !app_assoc in *.
      rewrite loop_head by (try exact M; try (cbn; lia); intros r E; destruct r as [|x [|y [|z r]]]; discriminate).
      cbv zeta. change (str_eqb $"//" $"/") with false. change (str_eqb $"//" $"//") with true. cbn iota.
      assert (len pre + 60 = len (pre ++ head_of $"//" m)) as Eo by (rewrite len_app, len_head_of by (try exact M; cbn; lia); lia).
      rewrite Eo. assert (zslice (pre ++ head_of $"//" m ++ table_of ns filler ++ fill ++ concat (map write_part ps) ++ junk) (len (pre ++ head_of $"//" m)) (v_size m) = table_of ns filler) as ->.
      { rewrite (app_assoc pre). now apply zslice_at. }
      destruct (table_names_of m ns filler Hn Hf Sz) as (tail & -> & _).
      assert (len (pre ++ head_of $"//" m) + len (table_of ns filler) + v_size m mod 2 = len (pre ++ head_of $"//" m ++ table_of ns filler ++ fill)) as ->.
      { rewrite !len_app, Sz, Fill. lia. }
      specialize (IH f (pre ++ head_of $"//" m ++ table_of ns filler ++ fill) done (map (rename false (ListNames (ns ++ tail))) files) (ListNames (ns ++ tail)) table true).
      rewrite <- !app_assoc in IH. apply IH; try assumption; [lia|now exists ns, tail|now left|]. exact (rename_known _ _ _ _ _ _ _ Et Fm Dn).
    + destruct Ok1 as ((M & (Pl1 & Pl2 & Pl3) & Hs) & Ok1).
      assert (seen = true \/ table = None \/ has_table ps) as Ht'.
      { destruct Ht as [Ht|[Ht|(m' & ns & fi & fl & [E|I])]]; [auto|auto|discriminate|]. right. right. now exists m', ns, fi, fl. }
      assert (forall w info, write_part (Member mb) = w -> len w mod 2 = 0 \/ True -> 
        describes_as (known seen mb) (pre ++ w ++ concat (map write_part ps) ++ junk) mb info ->
        first_member table mb ->
        match junk with
        | [] => exists out, parse_loop f (pre ++ w ++ concat (map write_part ps) ++ junk) false (len (pre ++ w)) (files ++ [info]) long = Ok out /\
                            Forall2 (describes (pre ++ w ++ concat (map write_part ps) ++ junk)) (done ++ mb :: members ps) out
        | _ => parse_loop f (pre ++ w ++ concat (map write_part ps) ++ junk) false (len (pre ++ w)) (files ++ [info]) long = Err RatarmountError
        end) as Next.
      { intros w info Ew _ D Fmb. cbn [write_part] in Ew. rewrite Ew in Dn. rewrite <- !app_assoc in Dn.
        specialize (IH f (pre ++ w) (done ++ [mb]) (files ++ [info]) long table seen). rewrite <- !app_assoc in IH. cbn [app] in IH.
        apply IH; try assumption; [lia|apply Forall_app; split; [exact Fm|]; constructor; [exact Fmb|constructor]|].
        apply Forall2_app; [exact Dn|]. constructor; [exact D|constructor]. }
      cbn [write_part] in Next. cbn [members flat_map app].
      destruct (m_style mb) as [nuls|nuls|before] eqn:St.
      * destruct Hs as (Ln & Ns & Nb & Sz & Fill).
        assert (len (head_of (m_name mb ++ repeat "000"%char nuls) (m_meta mb)) = 60) as L60.
        { apply len_head_of; [rewrite app_length, repeat_length; lia|exact M]. }
        rewrite <- !app_assoc.
        rewrite loop_head_nuls by assumption. cbv zeta.
        destruct (str_eqb_spec (m_name mb) $"/") as [E|_]; [exfalso; exact (Pl3 [] E)|].
        destruct (str_eqb_spec (m_name mb) $"//") as [E|_]; [exfalso; exact (Pl3 ["/"%char] E)|].
        unfold bsd_name. destruct (starts_with $"#1/" (m_name mb)) eqn:Sw; [exfalso; apply starts_with_spec in Sw; contradiction|].
        rewrite !andb_false_r, andb_true_r. cbn [negb].
        rewrite get_long_plain by exact Pl3.
        replace (if truthy long then m_name mb else m_name mb) with (m_name mb) by now destruct (truthy long).
        rewrite strip_nul by assumption. rewrite Z.add_0_r, Z.sub_0_r.
        set (info := mkAr _ _ _ _ _ _ _ _ _ _).
        set (w := head_of (m_name mb ++ repeat "000"%char nuls) (m_meta mb) ++ m_content mb ++ m_fill mb) in *.
        assert (len pre + 60 + v_size (m_meta mb) + v_size (m_meta mb) mod 2 = len (pre ++ w)) as ->.
        { unfold w. rewrite !len_app, Sz, Fill, L60. lia. }
        specialize (Next w info eq_refl (or_intror I)). unfold w in Next. rewrite <- !app_assoc in Next. unfold w. apply Next.
        -- unfold known. rewrite St. repeat apply conj; try reflexivity; cbn [info a_size a_offset_data].
           ++ exact Sz.
           ++ pose proof (len_nonneg pre). lia.
           ++ rewrite Sz. rewrite (app_assoc pre). apply zslice_at; [|reflexivity]. rewrite len_app, L60. reflexivity.
        -- split; [repeat split; assumption|]. now rewrite St.
      * destruct Hs as (Ln & Sz & Fill).
        set (z := len (m_name mb) + Z.of_nat nuls) in *.
        assert (0 <= z) as Pz by (unfold z; pose proof (len_nonneg (m_name mb)); lia).
        assert (length ($"#1/" ++ py_str z) <= 16)%nat as L16 by (rewrite app_length; cbn; lia).
        pose proof (len_head_of ($"#1/" ++ py_str z) (m_meta mb) L16 M) as L60.
        rewrite <- !app_assoc.
        rewrite loop_head; [|exact L16|apply py_str_end; [reflexivity|discriminate]|apply py_str_end; [reflexivity|discriminate]|exact M]. cbv zeta.
        destruct (str_eqb_spec ($"#1/" ++ py_str z) $"/") as [E|_]; [discriminate E|].
        destruct (str_eqb_spec ($"#1/" ++ py_str z) $"//") as [E|_]; [discriminate E|].
        unfold bsd_name. rewrite starts_with_app. change (skipn 3 ($"#1/" ++ py_str z)) with (py_str z). rewrite py_int_str.
        rewrite (proj2 (Z.ltb_ge z 0)) by lia.
        assert (forall rest : str, zslice (pre ++ head_of ($"#1/" ++ py_str z) (m_meta mb) ++ m_name mb ++ repeat "000"%char nuls ++ rest)
                       (len pre + 60) z = m_name mb ++ repeat "000"%char nuls) as Es.
        { intros rest. rewrite (app_assoc pre). rewrite (app_assoc (m_name mb)). apply zslice_at.
          - rewrite len_app, L60. reflexivity.
          - now rewrite len_app, len_repeat. }
        rewrite Es. assert (len (m_name mb ++ repeat "000"%char nuls) = z) as El by now rewrite len_app, len_repeat.
        rewrite El, Z.eqb_refl. rewrite !andb_false_r, andb_true_r. cbn [negb].
        rewrite get_long_plain.
        2:{ intros r E. destruct (m_name mb) as [|x n] eqn:En; [destruct nuls; discriminate E|]. cbn in E. injection E as -> _. exact (Pl3 n eq_refl). }
        replace (if truthy long then m_name mb ++ repeat "000"%char nuls else m_name mb ++ repeat "000"%char nuls) with (m_name mb ++ repeat "000"%char nuls) by now destruct (truthy long).
        rewrite strip_nuls by assumption.
        set (info := mkAr _ _ _ _ _ _ _ _ _ _).
        set (w := head_of ($"#1/" ++ py_str z) (m_meta mb) ++ m_name mb ++ repeat "000"%char nuls ++ m_content mb ++ m_fill mb) in *.
        assert (len pre + 60 + v_size (m_meta mb) + v_size (m_meta mb) mod 2 = len (pre ++ w)) as ->.
        { unfold w. rewrite !len_app, Sz, Fill, !len_app, L60. lia. }
        assert (v_size (m_meta mb) - z = len (m_content mb)) as Ez.
        { rewrite Sz, !len_app. rewrite len_app in El. lia. }
        specialize (Next w info eq_refl (or_intror I)). unfold w in Next. rewrite <- !app_assoc in Next. unfold w. apply Next.
        -- unfold known. rewrite St. repeat apply conj; try reflexivity; cbn [info a_size a_offset_data].
           ++ exact Ez.
           ++ pose proof (len_nonneg pre). lia.
           ++ rewrite Ez. rewrite (app_assoc pre). rewrite (app_assoc (m_name mb)). rewrite (app_assoc (pre ++ _)). apply zslice_at; [|reflexivity].
              rewrite len_app, El, len_app, L60. reflexivity.
        -- split; [repeat split; assumption|]. now rewrite St.
      * destruct Hs as (Ln & (Sz & Fill) & after & Et). cbn in Fp. subst before. cbn [app] in Et.
        change (table_of [] []) with (@nil ascii) in *. change (len (@nil ascii)) with 0 in *.
        assert (len (head_of ("/"%char :: py_str 0) (m_meta mb)) = 60) as L60 by (apply len_head_of; [cbn; lia|exact M]).
        rewrite <- !app_assoc.
        rewrite loop_head; [|cbn; lia|intros r E; destruct r as [|x [|y [|z r]]]; discriminate|intros r E; destruct r as [|x [|y [|z r]]]; discriminate|exact M]. cbv zeta.
        change (str_eqb ("/"%char :: py_str 0) $"/") with false. change (str_eqb ("/"%char :: py_str 0) $"//") with false. cbn iota.
        unfold bsd_name. change (starts_with $"#1/" ("/"%char :: py_str 0)) with false. cbn iota.
        rewrite !andb_false_r, andb_true_r. cbn [negb].
        assert ((if truthy long then get_long_file_name false long ("/"%char :: py_str 0) else "/"%char :: py_str 0) = known seen mb) as ->.
        { unfold known. rewrite St. destruct seen; cbn [long_ok] in Lo.
          - destruct Lo as (ns & tail & E & ->). assert (ns = m_name mb :: after) as -> by congruence. cbn [app truthy]. rewrite get_long_number by lia. reflexivity.
          - subst long. reflexivity. }
        assert (strip nul (known seen mb) = known seen mb) as ->.
        { unfold known. rewrite St. destruct seen; [now apply strip_nul|reflexivity]. }
        rewrite Z.add_0_r, Z.sub_0_r.
        set (info := mkAr _ _ _ _ _ _ _ _ _ _).
        set (w := head_of ("/"%char :: py_str 0) (m_meta mb) ++ m_content mb ++ m_fill mb) in *.
        assert (len pre + 60 + v_size (m_meta mb) + v_size (m_meta mb) mod 2 = len (pre ++ w)) as ->.
        { unfold w. rewrite !len_app, Sz, Fill, L60. lia. }
        specialize (Next w info eq_refl (or_intror I)). unfold w in Next. rewrite <- !app_assoc in Next. unfold w. apply Next.
        -- repeat apply conj; try reflexivity; cbn [info a_size a_offset_data].
           ++ exact Sz.
           ++ pose proof (len_nonneg pre). lia.
           ++ rewrite Sz. rewrite (app_assoc pre). apply zslice_at; [|reflexivity]. rewrite len_app, L60. reflexivity.
        -- split; [repeat split; assumption|]. rewrite St. split; [reflexivity|]. now exists after.
Qed.

Lemma concat_length {A B} (f : A -> list B) l : (forall x, In x l -> (1 <= length (f x))%nat) -> (length l <= length (concat (map f l)))%nat.
Proof.
  induction l as [|x l IH]; intros H; [cbn; lia|]. cbn [map concat length]. rewrite app_length. pose proof (H x (or_introl eq_refl)).
  specialize (IH (fun y I => H y (or_intror I))). lia.
Qed.

Lemma parse_archive junk ps : archive_ok ps -> first_names ps -> len junk < 60 ->
  match junk with
  | [] => exists files, parse_ar (archive ps ++ junk) = Ok files /\ Forall2 (describes (archive ps ++ junk)) (members ps) files
  | _ => parse_ar (archive ps ++ junk) = Err RatarmountError
  end.
Proof.
  intros (table & H & T) F L. unfold parse_ar, archive. rewrite <- app_assoc.
  assert (zslice (magic ++ concat (map write_part ps) ++ junk) 0 8 = magic) as ->.
  { rewrite <- (app_nil_l (magic ++ _)). apply zslice_at; reflexivity. }
  change (str_eqb magic ($"!<arch>" ++ [newline])) with true. cbn iota. change 8 with (len magic).
  apply (loop_parts junk ps _ magic [] [] NoNames table false); try assumption; [|reflexivity|constructor|auto|constructor].
  rewrite !app_length. assert (length ps <= length (concat (map write_part ps)))%nat; [|lia].
  apply concat_length. intros p _. destruct p as [m c fill|m ns filler fill|mb]; cbn [write_part]; [| |destruct (m_style mb)]; unfold head_of, head; rewrite !app_length; cbn; lia.
Qed.

(** ** Thin archives *)
Definition thin_long (table : option (list str)) (files : list ainfo) (long : names) : Prop :=
  match table with
  | None => files = [] /\ long = NoNames
  | Some ns => exists filler, long = ByteNames (table_of ns filler) /\ Forall (fun n => ~ In "010"%char n) ns
  end.

Lemma table_of_nonempty ns filler : ns <> [] -> table_of ns filler <> [].
Proof. destruct ns as [|n ns]; [congruence|]. intros _. rewrite table_of_cons. destruct n; discriminate. Qed.

Lemma loop_thin ps : forall fuel pre files long table, (length ps < fuel)%nat -> thin_ok table ps -> thin_long table files long ->
  exists new, parse_loop fuel (pre ++ concat (map write_thin ps)) true (len pre) files long = Ok (files ++ new) /\
              Forall2 thin_describes (thin_members ps) new.
Proof.
  induction ps as [|p ps IH]; intros fuel pre files long table Lf Ok1 Lo.
  - destruct fuel as [|f]; [cbn in Lf; lia|]. cbn [map concat parse_loop]. rewrite app_nil_r, zslice_past. cbn.
    exists []. rewrite app_nil_r. split; [reflexivity|constructor].
  - destruct fuel as [|f]; [cbn in Lf; lia|]. cbn [length] in Lf. cbn [map concat].
    destruct p as [m c fill|m ns filler|m before name]; cbn [write_thin thin_ok] in *.
    + destruct Ok1 as (M & (Sz & Fill) & Ok1). rewrite <- !app_assoc.
      rewrite loop_head by (try exact M; try (cbn; lia); intros r E; destruct r as [|x [|y r]]; discriminate).
      cbv zeta. change (str_eqb $"/" $"/") with true. cbn iota.
      assert (len pre + 60 + v_size m + v_size m mod 2 = len (pre ++ head_of $"/" m ++ c ++ fill)) as ->.
      { rewrite !len_app, Sz, Fill, len_head_of by (try exact M; cbn; lia). lia. }
      destruct (IH f (pre ++ head_of $"/" m ++ c ++ fill) files long table) as (new & E & D); try assumption; [lia|].
      rewrite <- !app_assoc in E. exists new. split; assumption.
    + destruct Ok1 as (M & -> & Sz & Nn & Hf & Hn & Ok1). destruct Lo as [-> ->]. rewrite <- !app_assoc.
      rewrite loop_head by (try exact M; try (cbn; lia); intros r E; destruct r as [|x [|y [|z r]]]; discriminate).
      cbv zeta. change (str_eqb $"//" $"/") with false. change (str_eqb $"//" $"//") with true. cbn iota.
      assert (len pre + 60 = len (pre ++ head_of $"//" m)) as Eo by (rewrite len_app, len_head_of by (try exact M; cbn; lia); lia).
      rewrite Eo. rewrite (app_assoc pre). rewrite Sz. rewrite zslice_mid. cbn [map]. rewrite Z.add_0_r.
      rewrite <- len_app.
      destruct (IH f ((pre ++ head_of $"//" m) ++ table_of ns filler) [] (ByteNames (table_of ns filler)) (Some ns)) as (new & E & D); try assumption; [lia|now exists filler|].
      rewrite <- (app_assoc (pre ++ _)) in E. exists new. split; [exact E|exact D].
    + destruct Ok1 as (M & Ln & (after & ->) & Ok1). destruct Lo as (filler & -> & Hn).
      set (z := len (table_of before [])) in *. assert (0 <= z) as Pz by apply len_nonneg.
      rewrite loop_head; [|cbn; lia|apply (py_str_end z " "%char eq_refl ltac:(discriminate) ["/"%char])|apply (py_str_end z "000"%char eq_refl ltac:(discriminate) ["/"%char])|exact M]. cbv zeta.
      destruct (digits_of_nonneg z Pz) as [Nz Fz].
      destruct (str_eqb_spec ("/"%char :: py_str z) $"/") as [E|_]; [injection E as E; contradiction|].
      destruct (str_eqb_spec ("/"%char :: py_str z) $"//") as [E|_]; [injection E as E; rewrite E in Fz; discriminate|].
      unfold bsd_name. change (starts_with $"#1/" ("/"%char :: py_str z)) with false. cbn iota.
      assert (truthy (ByteNames (table_of (before ++ name :: after) filler)) = true) as T.
      { cbn [truthy]. apply negb_true_iff. apply str_eqb_neq. apply table_of_nonempty. destruct before; discriminate. }
      rewrite T. cbn [negb andb]. rewrite get_long_number by exact Pz. cbn [andb].
      rewrite table_of_app, table_of_cons, len_app.
      rewrite (proj2 (Z.ltb_lt z _)).
      2:{ fold z. rewrite len_app, !len_cons. pose proof (len_nonneg name). pose proof (len_nonneg (table_of after filler)). lia. }
      rewrite zskip_app_ge by (unfold z; lia). replace (z - len (table_of before [])) with 0 by (unfold z; lia). rewrite zskip_0.
      rewrite until_end_name by (apply Forall_app in Hn as [_ Hn]; now inversion Hn).
      set (info := mkAr _ _ _ _ _ _ _ _ _ _).
      assert (len pre + 60 = len (pre ++ head_of ("/"%char :: py_str z) m)) as ->.
      { rewrite len_app, len_head_of by (try exact M; cbn; lia). lia. }
      destruct (IH f (pre ++ head_of ("/"%char :: py_str z) m) (files ++ [info]) (ByteNames (table_of (before ++ name :: after) filler)) (Some (before ++ name :: after))) as (new & E & D);
        try assumption; [lia|now exists filler|].
      rewrite <- app_assoc in E. rewrite table_of_app, table_of_cons in E. exists (info :: new). split; [rewrite E; now rewrite <- app_assoc|].
      cbn [thin_members flat_map app]. constructor; [|exact D]. cbn [thin_describes info a_linkname a_symlink a_mtime a_uid a_gid a_size a_mode]. rewrite Z.sub_0_r. repeat split; reflexivity.
Qed.

Lemma parse_thin_archive ps : thin_ok None ps ->
  exists files, parse_ar (thin_archive ps) = Ok files /\ Forall2 thin_describes (thin_members ps) files.
Proof.
  intros H. unfold parse_ar, thin_archive. assert (zslice (thin_magic ++ concat (map write_thin ps)) 0 8 = thin_magic) as ->.
  { rewrite <- (app_nil_l (thin_magic ++ _)). apply zslice_at; reflexivity. }
  change (str_eqb thin_magic ($"!<arch>" ++ [newline])) with false. change (str_eqb thin_magic ($"!<thin>" ++ [newline])) with true. cbn iota. change 8 with (len thin_magic).
  destruct (loop_thin ps (S (length (thin_magic ++ concat (map write_thin ps)))) thin_magic [] NoNames None) as (new & E & D); try assumption.
  - rewrite app_length. assert (length ps <= length (concat (map write_thin ps)))%nat; [|lia].
    apply concat_length. intros p _. destruct p as [m c fill|m ns filler|m before name]; cbn [write_thin]; unfold head_of, head; rewrite !app_length; cbn; lia.
  - split; reflexivity.
  - exists new. auto.
Qed.

(** ** Any input *)
Lemma parse_header_cases h : (exists hd, parse_header h = Ok hd /\ 0 <= h_size hd) \/ parse_header h = Err RatarmountError.
Proof.
  unfold parse_header. destruct (str_eqb (zslice h 58 2) _); [|now right].
  destruct (parse_int 10 0 (zslice h 16 12)); [|now right]. destruct (parse_int 10 0 (zslice h 28 6)); [|now right].
  destruct (parse_int 10 0 (zslice h 34 6)); [|now right]. destruct (parse_int 8 432 (zslice h 40 8)); [|now right].
  destruct (parse_int 10 0 (zslice h 48 10)) as [size|] eqn:E; [|now right]. left. eexists. split; [reflexivity|].
  cbn. apply (parse_int_nonneg 10 0 (zslice h 48 10)); [lia|lia|exact E].
Qed.

Lemma bsd_name_cases data offset name : 0 <= offset ->
  (exists s n, bsd_name data offset name = Ok (s, n) /\ 0 <= n /\ (0 < n -> offset + n <= len data)) \/
  bsd_name data offset name = Err RatarmountError \/ bsd_name data offset name = Err ValueError.
Proof.
  intros Ho. unfold bsd_name. destruct (starts_with _ name); [|left; exists name, 0; split; [reflexivity|lia]].
  destruct (py_int (skipn 3 name)) as [n|]; [|right; now right]. destruct (Z.ltb_spec n 0) as [L|L]; [right; now left|].
  destruct (Z.eqb_spec (len (zslice data offset n)) n) as [E|]; [|right; now left]. left. exists (zslice data offset n), n. split; [reflexivity|].
  split; [exact L|]. intros P. rewrite len_zslice in E by lia. lia.
Qed.

Lemma mod2_nonneg z : 0 <= z mod 2. Proof. pose proof (Z.mod_pos_bound z 2). lia. Qed.

Lemma loop_ends fuel : forall data thin pos files long, 0 <= pos -> len data - pos < Z.of_nat fuel -> (0 < fuel)%nat ->
  (exists out, parse_loop fuel data thin pos files long = Ok out) \/ parse_loop fuel data thin pos files long = Err RatarmountError \/
  parse_loop fuel data thin pos files long = Err ValueError.
Proof.
  induction fuel as [|f IH]; intros data thin pos files long Hp Hf Pf; [lia|]. cbn [parse_loop].
  pose proof (len_zslice data pos 60 Hp ltac:(lia)) as L.
  destruct (Z.eqb_spec (len (zslice data pos 60)) 0) as [E0|N0]; [left; eauto|].
  destruct (Z.ltb_spec (len (zslice data pos 60)) 60) as [Lt|Ge]; [right; now left|].
  assert (pos + 60 <= len data) as In by lia.
  destruct (parse_header_cases (zslice data pos 60)) as [(hd & -> & Hs)|E]; [|rewrite E; right; now left]. pose proof (mod2_nonneg (h_size hd)).
  destruct (str_eqb (h_name hd) $"/"); [apply IH; lia|].
  destruct (str_eqb (h_name hd) $"//"); [apply IH; destruct thin; pose proof (len_nonneg (zslice data (pos + 60) (h_size hd))); lia|].
  destruct (bsd_name_cases data (pos + 60) (h_name hd)) as [(s & n & -> & Hn & _)|[E|E]]; [lia| |rewrite E; right; now left|rewrite E; right; now right].
  apply IH; destruct thin; lia.
Qed.

Fixpoint regions_to (from : Z) (files : list ainfo) (to : Z) : Prop :=
  match files with
  | [] => from <= to
  | f :: r => from <= a_offset f /\ a_offset f + 60 <= a_offset_data f /\ regions_to (a_offset_data f + a_size f) r to
  end.

Lemma regions_weaken files : forall from a b, a <= b -> regions_to from files a -> regions_to from files b.
Proof. induction files as [|f r IH]; cbn; intros from a b H; [lia|]. intros (H1 & H2 & H3). eauto. Qed.

Lemma regions_snoc files g : forall from to, regions_to from files (a_offset g) -> a_offset g + 60 <= a_offset_data g -> a_offset_data g + a_size g <= to ->
  regions_to from (files ++ [g]) to.
Proof. induction files as [|f r IH]; cbn; intros from to; [auto|]. intros (H1 & H2 & H3). eauto. Qed.

Lemma regions_rename long files : forall from to, regions_to from files to -> regions_to from (map (rename false long) files) to.
Proof. induction files as [|f r IH]; cbn; intros from to; [auto|]. intros (H1 & H2 & H3). auto. Qed.

Lemma regions_drop files : forall from to, regions_to from files to -> regions from files.
Proof. induction files as [|f r IH]; cbn; intros from to; [auto|]. intros (H1 & H2 & H3). eauto. Qed.

Definition inside (data : str) (f : ainfo) : Prop := a_offset_data f <= len data.

Lemma loop_regions fuel : forall data pos files long out, 0 <= pos -> regions_to 8 files pos -> Forall (inside data) files ->
  parse_loop fuel data false pos files long = Ok out -> regions 8 out /\ Forall (inside data) out.
Proof.
  induction fuel as [|f IH]; intros data pos files long out Hp R I; [discriminate|]. cbn [parse_loop].
  pose proof (len_zslice data pos 60 Hp ltac:(lia)) as L.
  destruct (Z.eqb_spec (len (zslice data pos 60)) 0) as [E0|N0]; [intros [= <-]; split; [exact (regions_drop _ _ _ R)|exact I]|].
  destruct (Z.ltb_spec (len (zslice data pos 60)) 60) as [Lt|Ge]; [discriminate|].
  assert (pos + 60 <= len data) as In by lia.
  destruct (parse_header_cases (zslice data pos 60)) as [(hd & -> & Hs)|E]; [|rewrite E; discriminate]. pose proof (mod2_nonneg (h_size hd)).
  destruct (str_eqb (h_name hd) $"/"); [apply IH; [lia| |exact I]; apply (regions_weaken _ _ pos); [lia|exact R]|].
  destruct (str_eqb (h_name hd) $"//").
  { pose proof (len_nonneg (zslice data (pos + 60) (h_size hd))). apply IH; [lia| |].
    - apply regions_rename. apply (regions_weaken _ _ pos); [lia|exact R].
    - apply Forall_map. exact I. }
  destruct (bsd_name_cases data (pos + 60) (h_name hd)) as [(s & n & -> & Hn & Hd)|[E|E]]; [lia| |rewrite E; discriminate|rewrite E; discriminate].
  apply IH; [lia| |].
  - apply regions_snoc; cbn [a_offset a_offset_data a_size]; [exact R|lia|lia].
  - apply Forall_app. split; [exact I|]. constructor; [|constructor]. unfold inside. cbn [a_offset_data]. lia.
Qed.

(** ** Modes *)
Lemma low_bits p : 0 <= p < 4096 -> Z.land p S_IFMT = 0.
Proof.
  intros H. apply Z.bits_inj'. intros i Hi. rewrite Z.land_spec, Z.bits_0. change S_IFMT with (Z.shiftl 15 12).
  rewrite Z.shiftl_spec by exact Hi. destruct (Z.le_gt_cases 12 i) as [L|L].
  - destruct (Z.eq_dec p 0) as [->|N]; [now rewrite Z.bits_0|]. rewrite (Z.bits_above_log2 p i); [reflexivity|lia|].
    apply Z.log2_lt_pow2; [lia|]. apply Z.lt_le_trans with (2 ^ 12); [lia|]. apply Z.pow_le_mono_r; lia.
  - rewrite (Z.testbit_neg_r 15) by lia. apply andb_false_r.
Qed.

Lemma low_part p t : 0 <= p < 4096 -> Z.land t 4095 = 0 -> Z.land (Z.lor p t) 4095 = p.
Proof.
  intros H Ht. rewrite Z.land_lor_distr_l, Ht, Z.lor_0_r. change 4095 with (Z.ones 12). rewrite Z.land_ones by lia. apply Z.mod_small. lia.
Qed.

(** ** What headers say *)
Lemma take_digits_split s : s = fst (take_digits s) ++ snd (take_digits s).
Proof. induction s as [|c s IH]; [reflexivity|]. cbn. destruct (is_digit c); [|reflexivity]. destruct (take_digits s). cbn in *. now f_equal. Qed.

Lemma spaces_only s : forallb (fun c => char_eqb c space) s = true -> s = repeat " "%char (length s).
Proof.
  induction s as [|c s IH]; [reflexivity|]. cbn. intros H. apply andb_true_iff in H as [H1 H2]. destruct (char_eqb_spec c space); [|discriminate]. subst. f_equal. auto.
Qed.

Lemma denotes_digits b ds : b <= 10 -> Forall (fun c => is_digit c = true) ds -> forallb (fun c => digit_value c <? b) ds = true ->
  denotes b ds (fold_left (fun acc c => acc * b + digit_value c) ds 0).
Proof.
  intros Hb. induction ds as [|c ds IH] using rev_ind; intros D H; [constructor|]. rewrite forallb_app in H. apply andb_true_iff in H as [H1 H2].
  apply Forall_app in D as [D1 D2]. inversion D2 as [|c' l' Dc _]; subst. cbn [forallb] in H2. rewrite andb_true_r in H2. apply Z.ltb_lt in H2. pose proof (digit_value_range c Dc).
  rewrite fold_left_app. cbn [fold_left]. assert (c = ascii_of_nat (Z.to_nat (48 + digit_value c))) as Ec.
  { unfold digit_value. replace (Z.to_nat (48 + (Z.of_nat (nat_of_ascii c) - 48))) with (nat_of_ascii c) by lia. symmetry. apply ascii_nat_embedding. }
  rewrite Ec at 1. apply denotes_snoc; [now apply IH|lia].
Qed.

Lemma parse_int_reads b default w field n : b <= 10 -> len field = Z.of_nat w -> parse_int b default field = Ok n ->
  exists ds, field = pad w ds /\ number b default w ds n.
Proof.
  intros Hb Lw. unfold parse_int. pose proof (take_digits_split field) as Es. pose proof (take_digits_digits field) as D.
  destruct (take_digits field) as [ds rest]. cbn [fst snd] in *. destruct (forallb _ rest) eqn:Sp; [|discriminate]. apply spaces_only in Sp.
  intros H. exists ds. assert (length field = w) as L by (unfold len in Lw; lia). rewrite Es, app_length in L. split.
  - unfold pad. rewrite Es, Sp at 1. f_equal. f_equal. lia.
  - split; [lia|]. destruct ds as [|c ds]; [left; split; [reflexivity|congruence]|]. right. split; [discriminate|].
    destruct (forallb _ (c :: ds)) eqn:V; [|discriminate]. injection H as <-. now apply denotes_digits.
Qed.

Lemma parse_header_reads h hd : len h = 60 -> parse_header h = Ok hd ->
  zslice h 58 2 = ["`"%char; "010"%char] /\
  (exists ds, zslice h 16 12 = pad 12 ds /\ number 10 0 12 ds (h_mtime hd)) /\
  (exists ds, zslice h 28 6 = pad 6 ds /\ number 10 0 6 ds (h_uid hd)) /\
  (exists ds, zslice h 34 6 = pad 6 ds /\ number 10 0 6 ds (h_gid hd)) /\
  (exists ds mode, zslice h 40 8 = pad 8 ds /\ number 8 432 8 ds mode /\ h_mode hd = Z.lor mode 32768) /\
  (exists ds, zslice h 48 10 = pad 10 ds /\ number 10 0 10 ds (h_size hd)).
Proof.
  intros L. unfold parse_header. destruct (str_eqb_spec (zslice h 58 2) ["`"%char; newline]) as [E|]; [|discriminate].
  destruct (parse_int 10 0 (zslice h 16 12)) as [a|] eqn:E1; [|discriminate]. destruct (parse_int 10 0 (zslice h 28 6)) as [b|] eqn:E2; [|discriminate].
  destruct (parse_int 10 0 (zslice h 34 6)) as [c|] eqn:E3; [|discriminate]. destruct (parse_int 8 432 (zslice h 40 8)) as [d|] eqn:E4; [|discriminate].
  destruct (parse_int 10 0 (zslice h 48 10)) as [e|] eqn:E5; [|discriminate]. intros [= <-]. cbn [h_mtime h_uid h_gid h_mode h_size].
  split; [exact E|]. split; [|split; [|split; [|split]]].
  - apply parse_int_reads; [lia|rewrite len_zslice by lia; lia|exact E1].
  - apply parse_int_reads; [lia|rewrite len_zslice by lia; lia|exact E2].
  - apply parse_int_reads; [lia|rewrite len_zslice by lia; lia|exact E3].
  - destruct (parse_int_reads 8 432 8 (zslice h 40 8) d) as (ds & X & Y); [lia|rewrite len_zslice by lia; lia|exact E4|]. exists ds, d. auto.
  - apply parse_int_reads; [lia|rewrite len_zslice by lia; lia|exact E5].
Qed.

Lemma header_says_rename thin data long files : Forall (header_says thin data) files -> Forall (header_says thin data) (map (rename thin long) files).
Proof. intros F. apply Forall_map. apply (Forall_impl _ (P := header_says thin data)); [|exact F]. intros f H. unfold rename. now destruct thin. Qed.

Lemma loop_headers fuel : forall data thin pos files long out, 0 <= pos -> Forall (header_says thin data) files ->
  parse_loop fuel data thin pos files long = Ok out -> Forall (header_says thin data) out.
Proof.
  induction fuel as [|f IH]; intros data thin pos files long out Hp F; [discriminate|]. cbn [parse_loop].
  pose proof (len_zslice data pos 60 Hp ltac:(lia)) as L.
  destruct (Z.eqb_spec (len (zslice data pos 60)) 0) as [E0|N0]; [intros [= <-]; exact F|].
  destruct (Z.ltb_spec (len (zslice data pos 60)) 60) as [Lt|Ge]; [discriminate|].
  assert (len (zslice data pos 60) = 60) as L60 by lia.
  destruct (parse_header_cases (zslice data pos 60)) as [(hd & Eh & Hs)|E]; [|rewrite E; discriminate]. rewrite Eh. pose proof (mod2_nonneg (h_size hd)).
  destruct (str_eqb (h_name hd) $"/"); [apply IH; [lia|exact F]|].
  destruct (str_eqb (h_name hd) $"//").
  { pose proof (len_nonneg (zslice data (pos + 60) (h_size hd))). apply IH; [destruct thin; lia|]. now apply header_says_rename. }
  destruct (bsd_name_cases data (pos + 60) (h_name hd)) as [(s & n & -> & Hn & Hd)|[E|E]]; [lia| |rewrite E; discriminate|rewrite E; discriminate].
  apply IH; [destruct thin; lia|]. apply Forall_app. split; [exact F|]. constructor; [|constructor].
  destruct (parse_header_reads _ _ L60 Eh) as (R1 & R2 & R3 & R4 & (ds & mode & R5 & R5' & R5'') & (dz & R6 & R7)).
  unfold header_says. cbn [a_offset a_offset_data a_mtime a_uid a_gid a_mode a_size]. cbv zeta.
  repeat (split; [assumption|]). split.
  - exists ds, mode. split; [exact R5|]. split; [exact R5'|]. rewrite R5''. now destruct thin.
  - exists dz, (h_size hd). split; [exact R6|]. split; [exact R7|]. lia.
Qed.
