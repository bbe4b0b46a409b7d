From Coq Require Import Ascii String.
From Verif Require Import PyBase PyDict PyStr Format_Model Factory_Model Factory_Spec.
Local Open Scope Z_scope.

Lemma existsb_str (n : str) l : existsb (str_eqb n) l = true <-> In n l.
Proof.
  rewrite existsb_exists. split.
  - intros (x & I & E). apply str_eqb_eq in E. now subst.
  - intros I. exists n. split; [exact I|apply str_eqb_refl].
Qed.

Lemma dget_In {V} (d : list (str * V)) n v : dget str_eqb d n = Some v -> In (n, v) d.
Proof.
  induction d as [|[k w] d IH]; cbn [dget]; [discriminate|]. destruct (str_eqb_spec n k) as [->|N].
  - intros E. injection E as ->. now left.
  - intros E. right. now apply IH.
Qed.

Lemma dget_None {V} (d : list (str * V)) n : dget str_eqb d n = None <-> ~ In n (map fst d).
Proof.
  induction d as [|[k w] d IH]; cbn [dget map fst]; [split; [intros _ []|reflexivity]|].
  destruct (str_eqb_spec n k) as [->|N].
  - split; [discriminate|]. intros H. exfalso. apply H. now left.
  - rewrite IH. split; intros H; [intros [E|I]; [congruence|now apply H]|intros I; apply H; now right].
Qed.

Lemma In_dget {V} (d : list (str * V)) n v : NoDup (map fst d) -> In (n, v) d -> dget str_eqb d n = Some v.
Proof.
  induction d as [|[k w] d IH]; cbn [map fst]; intros ND I; [destruct I|destruct I as [E|I]].
  - injection E as -> ->. cbn [dget]. now rewrite str_eqb_refl.
  - inversion ND as [|? ? N1 N2]; subst. cbn [dget]. destruct (str_eqb_spec n k) as [->|N]; [|now apply IH].
    exfalso. apply N1. change k with (fst (k, v)). now apply in_map.
Qed.

Lemma In_unique {V} (d : list (str * V)) n v w : NoDup (map fst d) -> In (n, v) d -> In (n, w) d -> v = w.
Proof. intros ND A B. apply (In_dget d n v ND) in A. apply (In_dget d n w ND) in B. congruence. Qed.

(** lower case *)
Lemma small_lower c : small_letter c (lower c).
Proof.
  unfold small_letter, lower, ord, chr.
  destruct (Z.leb_spec 65 (Z.of_nat (nat_of_ascii c))); cbn [andb]; [destruct (Z.leb_spec (Z.of_nat (nat_of_ascii c)) 90); cbn [andb]|].
  - left. split; [lia|]. rewrite nat_ascii_embedding by lia. reflexivity.
  - right. split; [lia|reflexivity].
  - right. split; [lia|reflexivity].
Qed.
Lemma small_lower_eq c d : small_letter c d -> d = lower c.
Proof.
  intros H. pose proof (small_lower c) as L. destruct H as [[A B]|[A B]], L as [[C D]|[C D]]; try (exfalso; tauto).
  - rewrite <- (ascii_nat_embedding d), <- (ascii_nat_embedding (lower c)). now rewrite B, D.
  - congruence.
Qed.
Lemma small_all s l : Forall2 small_letter s l <-> l = lower_str s.
Proof.
  split.
  - induction 1 as [|c d s l H _ IH]; cbn; [reflexivity|]. rewrite IH. now rewrite (small_lower_eq c d H).
  - intros ->. induction s as [|c s IH]; cbn; constructor; [apply small_lower|exact IH].
Qed.
Lemma same_letters_eq a b : same_letters a b <-> lower_str a = lower_str b.
Proof.
  split.
  - intros (l & A & B). apply small_all in A, B. congruence.
  - intros E. exists (lower_str a). split; apply small_all; [reflexivity|exact E].
Qed.

Section Proofs.
Variable Src : Type.
Variable archives : list (str * archive_backend Src).
Variable compressions : list (str * compression_backend).
Variable extensions : Z -> list str.
Variable might_be : Z -> Z -> res bool.
Hypothesis tables_ok : proper_tables archives compressions.
Hypothesis backends_ok : proper_backends archives might_be.

Notation usable := (usable Src archives might_be).
Notation loop := (open_loop Src archives compressions might_be).
Notation stands := (stands_for compressions).
Definition resolve (x : str) : str := match dget str_eqb compressions x with Some c => c_delegated c | None => x end.

Lemma stands_resolve x n : stands x n <-> n = resolve x.
Proof.
  destruct tables_ok as (_ & NC & _). unfold stands_for, resolve. split.
  - intros [(c & I & ->)|[N ->]]; [now rewrite (In_dget _ _ _ NC I)|]. apply dget_None in N. now rewrite N.
  - destruct (dget str_eqb compressions x) as [c|] eqn:E; intros ->; [left|right].
    + exists c. split; [now apply dget_In|reflexivity].
    + split; [now apply dget_None|reflexivity].
Qed.

Lemma any_format_ok formats : exists b, any_format might_be 0 formats = Ok b /\ (b = true <-> exists fid, In fid formats /\ might_be fid 0 = Ok true).
Proof.
  destruct backends_ok as (HC & _). induction formats as [|fid r (b & E & H)]; cbn [any_format].
  - exists false. split; [reflexivity|]. split; [discriminate|]. intros (? & [] & _).
  - destruct (HC fid) as ([|] & M); rewrite M.
    + exists true. split; [reflexivity|]. split; [|reflexivity]. intros _. exists fid. split; [now left|exact M].
    + exists b. split; [exact E|]. rewrite H. split; intros (f & I & M'); exists f; (split; [|exact M']); [now right|].
      destruct I as [<-|I]; [congruence|exact I].
Qed.

Definition verdict (n : str) : option Src :=
  match dget str_eqb archives n with
  | None => None
  | Some b =>
    match (match a_formats _ b with [] => Ok true | _ => any_format might_be 0 (a_formats _ b) end) with
    | Ok true => match fst (a_open _ b 0) with Ok (Some s) => Some s | _ => None end
    | _ => None
    end
  end.

Lemma check_recognised b : exists v, (match a_formats Src b with [] => Ok true | _ => any_format might_be 0 (a_formats _ b) end) = Ok v /\
  (v = true <-> recognised Src might_be b).
Proof.
  unfold recognised. destruct (any_format_ok (a_formats _ b)) as (v & E & H). destruct (a_formats _ b) as [|f r].
  - exists true. split; [reflexivity|]. split; [now left|reflexivity].
  - exists v. split; [exact E|]. rewrite H. split; [now right|]. intros [D|D]; [discriminate|exact D].
Qed.

Lemma verdict_usable n s : verdict n = Some s <-> usable n s.
Proof.
  destruct tables_ok as (NA & _). unfold verdict, Factory_Spec.usable. split.
  - destruct (dget str_eqb archives n) as [b|] eqn:D; [|discriminate]. destruct (check_recognised b) as (v & -> & R).
    destruct v; [|discriminate]. destruct (fst (a_open Src b 0)) as [[s'|]|] eqn:O; try discriminate. intros E. injection E as ->.
    exists b. split; [now apply dget_In|]. split; [now apply R|exact O].
  - intros (b & I & R & O). rewrite (In_dget _ _ _ NA I). destruct (check_recognised b) as (v & -> & H). apply H in R. now rewrite R, O.
Qed.
Lemma usable_unique n s s' : usable n s -> usable n s' -> s = s'.
Proof. rewrite <- !verdict_usable. congruence. Qed.

Fixpoint pick (names : list str) : option (str * Src) :=
  match names with
  | [] => None
  | x :: r => match verdict (resolve x) with Some s => Some (resolve x, s) | None => pick r end
  end.

Lemma loop_pick object names tried : (forall t, In t tried -> verdict t = None) -> fst (loop object names tried 0) = Ok (pick names).
Proof.
  destruct backends_ok as (_ & HN).
  revert tried. induction names as [|x r IH]; intros tried HT; cbn [open_loop pick]; [reflexivity|].
  change (match dget str_eqb compressions x with Some info => c_delegated info | None => x end) with (resolve x).
  set (n := resolve x). destruct (existsb (str_eqb n) tried) eqn:M.
  - apply existsb_str in M. rewrite (HT n M). now apply IH.
  - unfold verdict at 1. destruct (dget str_eqb archives n) as [b|] eqn:D.
    + destruct (check_recognised b) as (v & E & R). pose proof (fun P => IH (n :: tried) P) as IH'.
      assert (V : verdict n = if v then match fst (a_open _ b 0) with Ok (Some s) => Some s | _ => None end else None).
      { unfold verdict. rewrite D, E. reflexivity. }
      rewrite E. destruct v.
      * destruct (a_open Src b 0) as [[[s|]|e] pos'] eqn:O; cbn [fst] in *.
        -- reflexivity.
        -- assert (P0 : pos' = 0). { specialize (HN n b (dget_In _ _ _ D)). rewrite O in HN. cbn [fst snd] in HN. now apply HN. }
           subst pos'. replace (if object then 0 else 0) with 0 by now destruct object.
           rewrite <- IH' by (intros t [<-|I]; [exact V|now apply HT]). now destruct (loop object r (n :: tried) 0).
        -- replace (if object then 0 else 0) with 0 by now destruct object.
           rewrite <- IH' by (intros t [<-|I]; [exact V|now apply HT]). now destruct (loop object r (n :: tried) 0).
      * apply IH'. intros t [<-|I]; [exact V|now apply HT].
    + apply IH. intros t [<-|I]; [unfold verdict; now rewrite D|now apply HT].
Qed.

Definition works (x : str) : Prop := exists n s, stands x n /\ usable n s.
Lemma works_verdict x : works x <-> exists s, verdict (resolve x) = Some s.
Proof.
  split.
  - intros (n & s & H & U). apply stands_resolve in H. subst. exists s. now apply verdict_usable.
  - intros (s & V). exists (resolve x), s. split; [now apply stands_resolve|now apply verdict_usable].
Qed.
Lemma works_dec x : {s | verdict (resolve x) = Some s} + {~ works x}.
Proof.
  destruct (verdict (resolve x)) as [s|] eqn:E; [left; now exists s|right]. intros H. apply works_verdict in H as (s & H). congruence.
Qed.

Lemma pick_app a b : pick (a ++ b) = match pick a with Some r => Some r | None => pick b end.
Proof. induction a as [|x a IH]; cbn [pick app]; [reflexivity|]. now destruct (verdict (resolve x)). Qed.
Lemma pick_none l : pick l = None <-> Forall (fun x => ~ works x) l.
Proof.
  induction l as [|x l IH]; cbn [pick]; [split; [constructor|reflexivity]|].
  destruct (verdict (resolve x)) as [s|] eqn:V.
  - split; [discriminate|]. intros H. apply Forall_inv in H. exfalso. apply H. apply works_verdict. now exists s.
  - rewrite IH. split; intros H; [constructor; [intros W; apply works_verdict in W as (s & W); congruence|exact H]|now apply Forall_inv_tail in H].
Qed.
Lemma pick_first l x n s : first_in works l x -> stands x n -> usable n s -> pick l = Some (n, s).
Proof.
  intros (before & after & -> & W & F) Hs U. apply stands_resolve in Hs. subst n. rewrite pick_app. apply pick_none in F. rewrite F. cbn [pick].
  apply verdict_usable in U. now rewrite U.
Qed.

(** the extension *)
Lemma matches_named fileName formats : matches_extension extensions fileName formats = true <-> named_like extensions fileName formats.
Proof.
  unfold matches_extension, named_like. rewrite existsb_exists. split.
  - intros (fid & I & H). apply existsb_exists in H as (ext & J & H). apply ends_with_spec in H as (t & E).
    assert (L : (length fileName = length t + S (length ext))%nat).
    { pose proof (f_equal (@length ascii) E) as L. unfold lower_str in L. rewrite app_length in L. cbn [length] in L. now rewrite !map_length in L. }
    exists fid, ext, (firstn (length t) fileName), (skipn (length t) fileName). split; [exact I|]. split; [exact J|].
    split; [now rewrite firstn_skipn|]. apply same_letters_eq. unfold lower_str. rewrite <- skipn_map. fold (lower_str fileName). rewrite E.
    rewrite skipn_app, skipn_all, Nat.sub_diag. reflexivity.
  - intros (fid & ext & stem & tail & I & J & -> & L). exists fid. split; [exact I|]. apply existsb_exists. exists ext. split; [exact J|].
    apply ends_with_spec. exists (lower_str stem). apply same_letters_eq in L. unfold lower_str in *. rewrite map_app, L. reflexivity.
Qed.

Lemma archive_resolves n : In n (map fst archives) -> resolve n = n.
Proof.
  destruct tables_ok as (_ & _ & _ & H). intros I. unfold resolve. destruct (dget str_eqb compressions n) as [c|] eqn:E; [|reflexivity].
  apply dget_In in E. now apply (H n c E).
Qed.
Lemma usable_archive n s : usable n s -> In n (map fst archives).
Proof. intros (b & I & _). change n with (fst (n, b)). now apply in_map. Qed.
Lemma archive_works n : In n (map fst archives) -> works n <-> exists s, usable n s.
Proof.
  intros I. rewrite works_verdict, (archive_resolves n I). split; intros (s & H); exists s; now apply verdict_usable.
Qed.

(** a filter of the first components *)
Lemma first_filter {V} (d : list (str * V)) (f : str * V -> bool) (P : str -> Prop) n :
  NoDup (map fst d) ->
  first_in (fun n => (exists b, In (n, b) d /\ f (n, b) = true) /\ P n) (map fst d) n -> first_in P (map fst (filter f d)) n.
Proof.
  intros ND (before & after & E & ((b & I & F) & H) & N).
  assert (exists d1 d2, d = d1 ++ (n, b) :: d2 /\ map fst d1 = before /\ map fst d2 = after) as (d1 & d2 & -> & <- & <-).
  { clear N H. revert before E ND I. induction d as [|[k v] d IH]; intros before E ND I; [destruct I|].
    cbn [map fst] in *. inversion ND as [|? ? N1 N2]; subst. destruct before as [|k' before].
    - injection E as -> E. destruct I as [I|I].
      + injection I as ->. exists [], d. subst. repeat split.
      + exfalso. apply N1. change n with (fst (n, b)). now apply in_map.
    - injection E as -> E. destruct I as [I|I].
      + exfalso. injection I as -> ->. apply N1. rewrite E. apply in_or_app. right. now left.
      + destruct (IH before E N2 I) as (d1 & d2 & -> & <- & <-). exists ((k', v) :: d1), d2. repeat split. }
  rewrite filter_app. cbn [filter]. rewrite F. rewrite map_app. cbn [map fst].
  exists (map fst (filter f d1)), (map fst (filter f d2)). split; [reflexivity|]. split; [exact H|].
  apply Forall_forall. intros k J W. apply in_map_iff in J as ([k' v] & <- & J). apply filter_In in J as (J & G).
  rewrite Forall_forall in N. apply (N k'); [change k' with (fst (k', v)); now apply in_map|]. split; [|exact W].
  exists v. split; [apply in_or_app; now left|exact G].
Qed.

Lemma trace_nodup object names tried pos :
  let t := snd (loop object names tried pos) in NoDup t /\ (forall n, In n t -> ~ In n tried /\ exists b, In (n, b) archives).
Proof.
  revert tried pos. induction names as [|x r IH]; intros tried pos; cbn [open_loop]; [split; [constructor|intros _ []]|].
  set (n := match dget str_eqb compressions x with Some info => c_delegated info | None => x end).
  destruct (existsb (str_eqb n) tried) eqn:M; [apply IH|].
  assert (Weak : forall t, NoDup t /\ (forall k, In k t -> ~ In k (n :: tried) /\ exists b, In (k, b) archives) ->
                           NoDup t /\ (forall k, In k t -> ~ In k tried /\ exists b, In (k, b) archives)).
  { intros t (A & B). split; [exact A|]. intros k I. destruct (B k I) as (C & D). split; [|exact D]. intros J. apply C. now right. }
  destruct (dget str_eqb archives n) as [b|] eqn:D; [|apply Weak; apply IH].
  destruct (match a_formats Src b with [] => Ok true | _ => any_format might_be pos (a_formats Src b) end) as [[|]|e].
  - assert (Cons : forall t, NoDup t /\ (forall k, In k t -> ~ In k (n :: tried) /\ exists b, In (k, b) archives) ->
                             NoDup (n :: t) /\ (forall k, In k (n :: t) -> ~ In k tried /\ exists b, In (k, b) archives)).
    { intros t (A & B). split; [constructor; [intros I; apply (B n I); now left|exact A]|]. intros k [<-|I].
      - split; [|exists b; now apply dget_In]. intros J. apply existsb_str in J. congruence.
      - destruct (B k I) as (C & E). split; [|exact E]. intros J. apply C. now right. }
    destruct (a_open Src b pos) as [[[s|]|e] pos'].
    + apply (Cons []). split; [constructor|intros _ []].
    + specialize (IH (n :: tried) (if object then pos' else pos)). destruct (loop object r (n :: tried) (if object then pos' else pos)) as [q t].
      apply Cons. exact IH.
    + specialize (IH (n :: tried) (if object then 0 else pos)). destruct (loop object r (n :: tried) (if object then 0 else pos)) as [q t].
      apply Cons. exact IH.
  - apply Weak. apply IH.
  - cbn [snd]. split; [constructor|intros _ []].
Qed.
Lemma first_archives l n : incl l (map fst archives) -> first_in (fun n => exists s, usable n s) l n -> first_in works l n.
Proof.
  intros A (before & after & -> & W & N). exists before, after. split; [reflexivity|]. split.
  - apply archive_works; [|exact W]. apply A, in_or_app. right. now left.
  - apply Forall_forall. intros k K W'. rewrite Forall_forall in N. apply (N k K). apply archive_works; [|exact W']. apply A, in_or_app. now left.
Qed.
Lemma archive_stands n : In n (map fst archives) -> stands n n.
Proof. intros I. apply stands_resolve. symmetry. now apply archive_resolves. Qed.
Lemma pick_archives l n s : incl l (map fst archives) -> first_in (fun n => exists s, usable n s) l n -> usable n s -> pick l = Some (n, s).
Proof.
  intros A F U. apply (pick_first l n); [now apply first_archives| |exact U]. apply archive_stands. now apply (usable_archive n s).
Qed.
Lemma pick_no_archives l : incl l (map fst archives) -> (forall n s, In n l -> ~ usable n s) -> pick l = None.
Proof.
  intros A N. apply pick_none. apply Forall_forall. intros k K W. apply archive_works in W as (s & U); [now apply (N k s K)|now apply A].
Qed.

Section Named.
Variable fileName : str.
Definition by_archive := map fst (filter (fun b => matches_extension extensions fileName (a_formats Src (snd b))) archives).
Definition by_compression := map (fun b => c_delegated (snd b)) (filter (fun b => matches_extension extensions fileName (c_formats (snd b))) compressions).
Lemma by_archive_incl : incl by_archive (map fst archives).
Proof. intros n I. apply in_map_iff in I as (b & <- & I). apply filter_In in I as (I & _). now apply in_map. Qed.
Lemma by_compression_incl : incl by_compression (map fst archives).
Proof.
  destruct tables_ok as (_ & _ & HD & _). intros n I. apply in_map_iff in I as ([x c] & <- & I). apply filter_In in I as (I & _). now apply (HD x c).
Qed.
Lemma by_archive_suggested n : In n by_archive <-> suggested_archive Src archives extensions fileName n.
Proof.
  unfold by_archive, suggested_archive. rewrite in_map_iff. split.
  - intros ([k b] & <- & I). apply filter_In in I as (I & M). exists b. split; [exact I|]. now apply matches_named.
  - intros (b & I & M). exists (n, b). split; [reflexivity|]. apply filter_In. split; [exact I|]. now apply matches_named.
Qed.
Lemma by_compression_suggested n : In n by_compression <-> suggested_compression compressions extensions fileName n.
Proof.
  unfold by_compression, suggested_compression. rewrite in_map_iff. split.
  - intros ([k b] & <- & I). apply filter_In in I as (I & M). exists k, b. split; [exact I|]. split; [now apply matches_named|reflexivity].
  - intros (k & b & I & M & ->). exists (k, b). split; [reflexivity|]. apply filter_In. split; [exact I|]. now apply matches_named.
Qed.
Lemma first_by_archive n : first_in (fun n => suggested_archive Src archives extensions fileName n /\ exists s, usable n s) (map fst archives) n ->
  first_in (fun n => exists s, usable n s) by_archive n.
Proof.
  destruct tables_ok as (NA & _). intros F. apply first_filter; [exact NA|]. destruct F as (before & after & E & ((b & I & L) & W) & A).
  exists before, after. split; [exact E|]. split.
  - split; [|exact W]. exists b. split; [exact I|]. now apply matches_named.
  - eapply Forall_impl; [|exact A]. intros k H ((c & J & M) & W'). apply H. split; [|exact W']. exists c. split; [exact J|]. now apply matches_named.
Qed.
Lemma first_by_compression x c :
  first_in (fun x => exists c s, In (x, c) compressions /\ named_like extensions fileName (c_formats c) /\ usable (c_delegated c) s) (map fst compressions) x ->
  In (x, c) compressions -> first_in (fun n => exists s, usable n s) by_compression (c_delegated c).
Proof.
  destruct tables_ok as (_ & NC & _). intros F I.
  assert (G : first_in (fun x => exists c s, In (x, c) compressions /\ usable (c_delegated c) s)
                (map fst (filter (fun b => matches_extension extensions fileName (c_formats (snd b))) compressions)) x).
  { apply first_filter; [exact NC|]. destruct F as (before & after & E & (c' & s & I' & L & U) & A). exists before, after. split; [exact E|]. split.
    - split; [exists c'; split; [exact I'|now apply matches_named]|]. now exists c', s.
    - eapply Forall_impl; [|exact A]. intros k H ((d & J & M) & d' & s' & J' & U'). apply H. exists d', s'. split; [exact J'|]. split; [|exact U'].
      assert (d = d') by now apply (In_unique compressions k). subst. now apply matches_named. }
  unfold by_compression. set (l := filter (fun b => matches_extension extensions fileName (c_formats (snd b))) compressions) in *.
  assert (IL : incl l compressions) by (intros b B; now apply filter_In in B).
  destruct G as (before & after & E & (c' & s & I' & U) & A). assert (c' = c) by now apply (In_unique compressions x). subst c'.
  assert (exists d1 d2, l = d1 ++ (x, c) :: d2 /\ map fst d1 = before) as (d1 & d2 & -> & <-).
  { apply map_eq_app in E as (d1 & d2' & -> & E1 & E2). apply map_eq_cons in E2 as ([k c'] & d2 & -> & E2 & E3). cbn in E2. subst k.
    exists d1, d2. split; [|exact E1]. f_equal. f_equal. f_equal. apply (In_unique compressions x); [exact NC| |exact I]. apply IL, in_or_app. right. now left. }
  rewrite map_app. cbn [map snd]. exists (map (fun b => c_delegated (snd b)) d1), (map (fun b => c_delegated (snd b)) d2).
  split; [reflexivity|]. split; [now exists s|]. apply Forall_forall. intros n N (s' & U'). apply in_map_iff in N as ([k d] & <- & N).
  rewrite Forall_forall in A. apply (A k); [change k with (fst (k, d)); now apply in_map|]. exists d, s'. split; [|exact U'].
  apply IL, in_or_app. now left.
Qed.
End Named.
End Proofs.

Section Undo.
Variable compressions : list (str * compression_backend).
Variable loaded : list str.
Variable compression : Z.
Hypothesis NC : NoDup (map fst compressions).
Notation can := (can_undo compressions loaded compression).

Lemma loaded_incl b : modules_loaded loaded b = true <-> incl (c_modules b) loaded.
Proof.
  unfold modules_loaded. rewrite forallb_forall. split; intros H m I; [now apply existsb_str, H|apply existsb_str; now apply H].
Qed.

Definition try_names (skip : str -> bool) (names : list str) (found : option (str * compression_backend)) :=
  fold_left (fun (found : option (str * compression_backend)) name =>
      match found with
      | Some _ => found
      | None =>
        if skip name then None
        else match dget str_eqb compressions name with
             | None => None
             | Some b => if modules_loaded loaded b then Some (name, b) else None
             end
      end) names found.
Lemma try_found skip names f : try_names skip names (Some f) = Some f.
Proof. induction names as [|n r IH]; cbn; [reflexivity|exact IH]. Qed.
Lemma try_cons skip n r : try_names skip (n :: r) None =
  if skip n then try_names skip r None
  else match dget str_eqb compressions n with
       | None => try_names skip r None
       | Some b => if modules_loaded loaded b then Some (n, b) else try_names skip r None
       end.
Proof.
  unfold try_names at 1. cbn [fold_left]. destruct (skip n); [reflexivity|]. destruct (dget str_eqb compressions n) as [b|]; [|reflexivity].
  destruct (modules_loaded loaded b); [|reflexivity]. apply try_found.
Qed.
Definition ready (skip : str -> bool) (n : str) : Prop := skip n = false /\ exists b, In (n, b) compressions /\ incl (c_modules b) loaded.
Lemma try_first skip names n b : first_in (ready skip) names n -> In (n, b) compressions -> try_names skip names None = Some (n, b).
Proof.
  intros (before & after & -> & (S & b' & I' & L) & N) I. assert (b' = b) by now apply (In_unique compressions n). subst b'.
  induction before as [|k before IH]; cbn [app]; rewrite try_cons.
  - rewrite S. rewrite (In_dget _ _ _ NC I). apply loaded_incl in L. now rewrite L.
  - pose proof (Forall_inv N) as Nk. specialize (IH (Forall_inv_tail N)). destruct (skip k) eqn:Sk; [exact IH|].
    destruct (dget str_eqb compressions k) as [c|] eqn:D; [|exact IH]. destruct (modules_loaded loaded c) eqn:M; [|exact IH].
    exfalso. apply Nk. split; [exact Sk|]. exists c. split; [now apply dget_In|now apply loaded_incl].
Qed.
Lemma try_none skip names : Forall (fun n => ~ ready skip n) names -> try_names skip names None = None.
Proof.
  induction names as [|k names IH]; intros N; [reflexivity|]. rewrite try_cons. pose proof (Forall_inv N) as Nk. specialize (IH (Forall_inv_tail N)).
  destruct (skip k) eqn:Sk; [exact IH|]. destruct (dget str_eqb compressions k) as [c|] eqn:D; [|exact IH].
  destruct (modules_loaded loaded c) eqn:M; [|exact IH]. exfalso. apply Nk. split; [exact Sk|]. exists c. split; [now apply dget_In|now apply loaded_incl].
Qed.

Notation matching := (map fst (filter (fun b : str * compression_backend => existsb (Z.eqb compression) (c_formats (snd b))) compressions)).
Lemma in_matching n b : In (n, b) compressions -> In n matching <-> In compression (c_formats b).
Proof.
  intros I. rewrite in_map_iff. split.
  - intros ([k c] & E & J). cbn in E. subst k. apply filter_In in J as (J & F). assert (c = b) by now apply (In_unique compressions n). subst c.
    apply existsb_exists in F as (x & X & Y). apply Z.eqb_eq in Y. now subst.
  - intros F. exists (n, b). split; [reflexivity|]. apply filter_In. split; [exact I|]. apply existsb_exists. exists compression. split; [exact F|apply Z.eqb_refl].
Qed.

Lemma find_as_try prioritized : find_available_backend compressions loaded compression prioritized =
  match try_names (fun name => negb (existsb (str_eqb name) matching)) prioritized None with
  | Some b => Some b
  | None => try_names (fun name => existsb (str_eqb name) prioritized) matching None
  end.
Proof. reflexivity. Qed.

Definition may (n : str) : Prop := exists b, can (n, b).
Lemma ready_may n : ready (fun name => negb (existsb (str_eqb name) matching)) n <-> may n.
Proof.
  unfold ready, may, can_undo. cbn [snd]. split.
  - intros (S & b & I & L). exists b. split; [exact I|]. split; [|exact L]. apply negb_false_iff, existsb_str in S. now apply (in_matching n b I).
  - intros (b & I & F & L). split; [|exists b; now split]. apply negb_false_iff, existsb_str. now apply (in_matching n b).
Qed.

Lemma find_prioritized prioritized n b : first_in may prioritized n -> In (n, b) compressions ->
  find_available_backend compressions loaded compression prioritized = Some (n, b).
Proof.
  intros (before & after & E & M & N) I. rewrite find_as_try.
  rewrite (try_first _ prioritized n b); [reflexivity| |exact I].
  exists before, after. split; [exact E|]. split; [now apply ready_may|]. eapply Forall_impl; [|exact N]. intros k H R. apply H. now apply ready_may.
Qed.

Lemma prio_none prioritized : Forall (fun n => ~ may n) prioritized ->
  try_names (fun name => negb (existsb (str_eqb name) matching)) prioritized None = None.
Proof. intros N. apply try_none. eapply Forall_impl; [|exact N]. intros k H R. apply H. now apply ready_may. Qed.

Lemma ready_rest prioritized n : Forall (fun n => ~ may n) prioritized -> In n matching ->
  ready (fun name => existsb (str_eqb name) prioritized) n <-> may n.
Proof.
  intros N M. unfold ready, may, can_undo. cbn [snd]. split.
  - intros (S & b & I & L). exists b. split; [exact I|]. split; [now apply (in_matching n b)|exact L].
  - intros (b & I & F & L). split; [|exists b; now split]. apply not_true_iff_false. intros E. apply existsb_str in E.
    rewrite Forall_forall in N. apply (N n E). exists b. split; [exact I|]. now split.
Qed.

Lemma find_table prioritized n b : Forall (fun n => ~ may n) prioritized -> first_in may (map fst compressions) n -> In (n, b) compressions ->
  find_available_backend compressions loaded compression prioritized = Some (n, b).
Proof.
  intros N H I. rewrite find_as_try, (prio_none prioritized N). apply try_first; [|exact I].
  assert (G : first_in may matching n).
  { apply first_filter; [exact NC|]. destruct H as (before & after & E & M & F). exists before, after. split; [exact E|]. split.
    - split; [|exact M]. destruct M as (c & C1 & C2 & C3). cbn [snd] in *. exists c. split; [exact C1|]. cbn [snd]. apply existsb_exists.
      exists compression. split; [exact C2|apply Z.eqb_refl].
    - eapply Forall_impl; [|exact F]. intros k W (_ & Z). now apply W. }
  destruct G as (before & after & E & M & F). exists before, after. split; [exact E|].
  assert (InM : forall k, In k (before ++ n :: after) -> In k matching) by (intros k; now rewrite E).
  split; [apply ready_rest; [exact N|apply InM; apply in_or_app; right; now left|exact M]|].
  apply Forall_forall. intros k K R. rewrite Forall_forall in F. apply (F k K). apply (ready_rest prioritized k N); [|exact R].
  apply InM. apply in_or_app. now left.
Qed.

Lemma find_none prioritized : (forall n, ~ may n) -> find_available_backend compressions loaded compression prioritized = None.
Proof.
  intros N. rewrite find_as_try, prio_none by (apply Forall_forall; intros k _; apply N). apply try_none.
  apply Forall_forall. intros k K R. destruct R as (S & b & I & L). apply (N k). exists b. split; [exact I|]. split; [now apply (in_matching k b)|exact L].
Qed.
End Undo.
