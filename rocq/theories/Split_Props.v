(** C36: split archives. *)
From Coq Require Import Ascii String.
From Verif Require Import PyBase PyStr Split_Model Split_Spec Split_Proofs.

(** C36: the search for consecutive suffixes ends for every set of suffixes, and finds exactly the consecutive ones. *)
Theorem C36_sequence f alphabet extensions w : In (f, alphabet) systems ->
  exists l, check_for_sequence extensions alphabet w = Ok l /\ counted alphabet w (fun e => In e extensions) l /\ NoDup l /\
    forall l', counted alphabet w (fun e => In e extensions) l' -> l' = l.
Proof.
  intros Hin. assert (1 < length alphabet /\ NoDup alphabet) as [B ND].
  { pose proof alphabets as A. rewrite Forall_forall in A. exact (A (f, alphabet) Hin). }
  destruct (check_for_sequence_spec extensions alphabet w B ND) as (l & E & C). exists l.
  split; [exact E|]. split; [exact C|]. split; [now apply (counted_NoDup _ _ _ _ ND C)|].
  intros l' C'. exact (counted_unique _ _ _ _ _ B C' C).
Qed.
Print Assumptions C36_sequence.

(** What the detection does for a file [stem.own]. *)
Lemma detect real_name path candidates stem own : rsplit1 dotc (real_name path) = Some (stem, own) ->
  (same_kind own own -> In (real_name path) candidates) ->
  exists r, check_for_split_file_in real_name path candidates = Ok r /\
    let w := length own in let exist := sibling candidates stem own in
    match r with
    | Some (paths, f) => exists alphabet l, In (f, alphabet) systems /\ counted alphabet w exist l /\ 2 <= length l /\
        paths = map (fun e => match rsplit1 dotc path with Some (a, _) => a | None => path end ++ "."%char :: e) l /\
        forall f' alphabet' l', In (f', alphabet') systems -> counted alphabet' w exist l' -> length l' <= length l
    | None => forall f' alphabet' l', In (f', alphabet') systems -> counted alphabet' w exist l' -> length l' < 2
    end.
Proof.
  intros E Own. unfold check_for_split_file_in. rewrite E. fold (found stem candidates).
  set (ext := filter _ _). assert (forall e, In e ext <-> sibling candidates stem own e) as X by (intros e; apply siblings_In).
  apply rsplit1_Some in E as [E _].
  destruct (best_sequence_spec ext (length own) formats alphabets ([], [])) as ([f l] & Eb & _ & R & Mx). cbn [snd] in *.
  assert (forall f' alphabet' l', In (f', alphabet') systems -> counted alphabet' (length own) (sibling candidates stem own) l' ->
            length l' <= length l) as Mx2.
  { intros f' al' l' Hin C'. destruct (C36_sequence f' al' ext (length own) Hin) as (l0 & E0 & _ & _ & U0).
    rewrite (U0 l'); [now apply (Mx f' al')|]. apply (counted_ext _ _ (sibling candidates stem own)); [|exact C']. intros s. now rewrite X. }
  destruct ext as [|e0 er] eqn:Ex.
  - exists None. split; [reflexivity|]. cbn zeta. intros f' al' l' Hin (st & _ & _ & _ & F & _).
    destruct l' as [|x l']; [cbn; lia|]. inversion F; subst. apply X in H1. destruct H1.
  - rewrite <- Ex in *. assert (mem own ext = true) as M.
    { apply mem_In, X. unfold sibling. assert (sibling candidates stem own e0) as S0 by (apply X; rewrite Ex; now left).
      assert (same_kind own own) as K.
      { destruct S0 as [_ (A & B & g & al & G1 & G2 & G3)]. split; [exact B|]. split; [exact B|]. exists g, al. auto. }
      split; [|exact K]. change "."%char with dotc. rewrite <- E. now apply Own. }
    rewrite M. cbn [negb]. rewrite Eb. cbn [bind].
    destruct R as [R|(al & Hin & C & _ & NE)].
    + injection R as -> ->. cbn [nonempty andb]. exists None. split; [reflexivity|]. cbn zeta. intros f' al' l' Hin C'.
      pose proof (Mx2 f' al' l' Hin C'). cbn in H. lia.
    + assert (nonempty f = true) as Nf by (cbn [fst] in Hin; destruct Hin as [Q|[Q|[Q|[]]]]; injection Q as <- _; reflexivity).
      rewrite Nf. cbn [andb]. destruct (Nat.ltb_spec 1 (length l)) as [L|L].
      * eexists. split; [reflexivity|]. cbn zeta. exists al, l. split; [exact Hin|].
        split; [apply (counted_ext _ _ (fun s => In s ext)); [exact X|exact C]|]. split; [lia|]. split; [reflexivity|exact Mx2].
      * exists None. split; [reflexivity|]. cbn zeta. intros f' al' l' Hin' C'. pose proof (Mx2 f' al' l' Hin' C'). lia.
Qed.

(** C36: for a file [stem.own] in its folder (with the path [folder ++ stem.own], reached without symbolic links), detection ends without error.  If parts
    are returned they are all the consecutively numbered siblings in some numbering system, at least two, in counting order, all existing, none
    twice, and no other system has more.  If none are returned, then no system has two consecutive ones. *)
Theorem C36_detection folder stem own candidates : ~ In "."%char own ->
  let file := stem ++ "."%char :: own in
  In file candidates ->
  exists r, check_for_split_file_in (fun _ => file) (folder ++ file) candidates = Ok r /\
    let w := length own in let exist := sibling candidates stem own in
    match r with
    | Some (paths, f) => exists alphabet l, In (f, alphabet) systems /\ counted alphabet w exist l /\ 2 <= length l /\ NoDup paths /\
        paths = map (fun e => folder ++ stem ++ "."%char :: e) l /\
        (forall e, In e l -> In (stem ++ "."%char :: e) candidates) /\
        forall f' alphabet' l', In (f', alphabet') systems -> counted alphabet' w exist l' -> length l' <= length l
    | None => forall f' alphabet' l', In (f', alphabet') systems -> counted alphabet' w exist l' -> length l' < 2
    end.
Proof.
  intros Nd file Hin.
  assert (rsplit1 dotc file = Some (stem, own)) as E by (apply rsplit1_Some; split; [reflexivity|exact Nd]).
  destruct (detect (fun _ => file) (folder ++ file) candidates stem own E (fun _ => Hin)) as (r & Er & D).
  exists r. split; [exact Er|]. cbn zeta in *. destruct r as [[paths f]|]; [|exact D].
  destruct D as (al & l & A1 & A2 & A3 & A4 & A5). exists al, l. split; [exact A1|]. split; [exact A2|]. split; [exact A3|].
  assert (rsplit1 dotc (folder ++ file) = Some (folder ++ stem, own)) as E2.
  { apply rsplit1_Some. split; [|exact Nd]. unfold file. now rewrite <- app_assoc. }
  rewrite E2 in A4. assert (paths = map (fun e => folder ++ stem ++ "."%char :: e) l) as Ep.
  { rewrite A4. apply map_ext. intros e. now rewrite <- app_assoc. }
  split; [|split; [exact Ep|split; [|exact A5]]].
  - rewrite Ep. assert (NoDup l) as Nl.
    { apply (counted_NoDup al (length own) (sibling candidates stem own)); [|exact A2].
      pose proof alphabets as A. rewrite Forall_forall in A. exact (proj2 (A (f, al) A1)). }
    clear - Nl. induction Nl as [|e l N Nl IH]; [constructor|]. cbn [map]. constructor; [|exact IH]. intros H. apply in_map_iff in H as (x & Ex & Hx).
    apply app_inv_head in Ex. apply app_inv_head in Ex. injection Ex as ->. contradiction.
  - intros e He. destruct A2 as (st & _ & _ & _ & F & _). rewrite Forall_forall in F. now destruct (F e He).
Qed.
Print Assumptions C36_detection.

(** The file itself is among the parts if its suffix is one of the numbers counted. *)
Theorem C36_member_partial alphabet w exist l start j own : 1 < length alphabet -> start <= 1 ->
  (start = 0 <-> exists s, numeral alphabet w 0 s /\ exist s) -> counted alphabet w exist l ->
  numeral alphabet w j own -> start <= j < start + length l -> In own l.
Proof.
  intros B Ls S (st & L & S2 & N & _) Nj Hj. assert (st = start) by (assert (st = 0 <-> start = 0) by (rewrite S, S2; reflexivity); lia). subst st.
  destruct (nth_error l (j - start)) as [s|] eqn:E; [|apply nth_error_None in E; lia].
  pose proof (N _ _ E) as Ns. replace (start + (j - start)) with j in Ns by lia.
  rewrite (numeral_unique alphabet w j own s B Nj Ns). now apply nth_error_In in E.
Qed.
Print Assumptions C36_member_partial.

(** Where the full statement fails: a file that does not belong to the consecutive parts is replaced by them.  The last two
    files are different archives. *)
Theorem C36_own_file_refuted :
  check_for_split_file_in (fun p => p) $"x.05" [$"x.00"; $"x.01"; $"x.05"] = Ok (Some ([$"x.00"; $"x.01"], $"0")) /\
  check_for_split_file_in (fun p => p) $"x.gz" [$"x.aa"; $"x.ab"; $"x.gz"] = Ok (Some ([$"x.aa"; $"x.ab"], $"a")).
Proof. vm_compute. auto. Qed.
Print Assumptions C36_own_file_refuted.

(** For a symbolic link the parts are looked for by the name of its target: this fails, or returns parts that do not exist. *)
Theorem C36_link_refuted :
  check_for_split_file_in (fun _ => $"y.01") $"x.01" [$"x.00"; $"x.01"; $"y.00"] = Err AssertionError /\
  check_for_split_file_in (fun _ => $"y.01") $"x.01" [$"x.01"; $"y.01"; $"y.02"] = Ok (Some ([$"x.01"; $"x.02"], $"0")).
Proof. vm_compute. auto. Qed.
Print Assumptions C36_link_refuted.

(** ** Examples *)
Example C36_decimal : check_for_split_file_in (fun p => p) $"b.tar.01" [$"b.tar.03"; $"b.tar.01"; $"c"; $"b.tar.02"; $"b.tar.05"] =
  Ok (Some ([$"b.tar.01"; $"b.tar.02"; $"b.tar.03"], $"0")).
Proof. vm_compute. reflexivity. Qed.
(** Overflow of the width. *)
Example C36_overflow : check_for_sequence (map list_ascii_of_string ["10"; "9"; "8"; "7"; "6"; "5"; "4"; "3"; "2"; "1"]%string) decimal 1 =
  Ok (map list_ascii_of_string ["1"; "2"; "3"; "4"; "5"; "6"; "7"; "8"; "9"; "10"]%string).
Proof. vm_compute. reflexivity. Qed.
Example C36_numeral : numeral decimal 1 10 $"10" /\ numeral lowercase 2 27 $"bb".
Proof.
  split; [exists [1; 0]|exists [1; 1]].
  - split; [repeat constructor|]. split; [reflexivity|]. split; [reflexivity|]. right. cbn. lia.
  - split; [repeat constructor|]. split; [reflexivity|]. split; [reflexivity|]. left. reflexivity.
Qed.
