(** Theorems about the quick walk over the headers of a TAR archive (C92), the detection of GNU incremental archives (C93), and
    the names of their members (C94). *)
From Coq Require Import Ascii String Sorting.Sorted.
From Verif Require Import PyBase PyStr PyInt Offsets_Model Offsets_Spec Offsets_Proofs.
Local Open Scope Z_scope.

(** ** C92: split points *)
Theorem C92_split_points es tail ignore_zeros :
  laid_out None es -> ends_archive ignore_zeros tail -> (ignore_zeros = false -> Forall (fun e => (e_zeros e <= 1)%nat) es) ->
  let (found, error) := find_tar_file_offsets (archive es tail) ignore_zeros in
  error = None /\ StronglySorted (fun x y => fst x < fst y) found /\
  forall offset t, In (offset, t) found <->
    exists before e after, es = before ++ e :: after /\ offset = header_at before e /\ t = flag e /\ cut_here before.
Proof.
  intros H1 H2 H3. rewrite (find_points es tail ignore_zeros H1 H2 H3). split; [reflexivity|]. split; [now apply (points_sorted es None)|].
  intros offset t. rewrite points_In. split; intros (before & e & after & E & Q & H); exists before, e, after; (split; [assumption|]).
  - injection Q as -> ->. split; [reflexivity|]. split; [reflexivity|]. destruct H as [[-> _]|H]; [now left|now right].
  - destruct H as [-> H]. subst offset. split; [reflexivity|]. destruct H as [->|H]; auto.
Qed.
Print Assumptions C92_split_points.

Lemma header_at_lt a es before p mid e after : laid_out a es -> es = before ++ p :: mid ++ e :: after ->
  header_at before p < header_at (before ++ p :: mid) e.
Proof.
  intros H E. assert (L : length (e_head p) = 512%nat).
  { clear - H E. revert a H before E. induction es as [|x es IH]; intros a H before E; [now destruct before|].
    inversion H; subst. destruct before; cbn [app] in E; injection E as -> E; [assumption|]. eauto. }
  unfold header_at. rewrite map_app, concat_app, len_app. cbn [map concat]. change (bytes_of p) with (zeros (512 * e_zeros p) ++ e_head p ++ e_data p). rewrite !len_app, len_zeros.
  pose proof (len_nonneg (concat (map bytes_of mid))). pose proof (len_nonneg (e_data p)). assert (len (e_head p) = 512) by (unfold len; lia). lia.
Qed.

(** An archive cut at a split point never has a long name, a long link or an extended header in one part and the entry that it
    describes in the other. *)
Theorem C92_never_separates es tail ignore_zeros before p e after :
  laid_out None es -> ends_archive ignore_zeros tail -> (ignore_zeros = false -> Forall (fun e => (e_zeros e <= 1)%nat) es) ->
  es = before ++ p :: e :: after -> In (flag p) ["K"; "L"; "x"; "X"; "g"]%char ->
  ~ exists t, In (header_at (before ++ [p]) e, t) (fst (find_tar_file_offsets (archive es tail) ignore_zeros)).
Proof.
  intros H1 H2 H3 E Hp (t & I). pose proof (C92_split_points es tail ignore_zeros H1 H2 H3) as S.
  destruct (find_tar_file_offsets _ _) as [found error]. destruct S as (_ & _ & S). cbn [fst] in I.
  apply S in I as (b & e' & af & E' & Hh & _ & C).
  assert (B : b = before ++ [p]).
  { assert (Q : es = (before ++ [p]) ++ e :: after) by (rewrite <- app_assoc; exact E).
    revert Hh Q E'. generalize (before ++ [p]). intros x Hh Q E'. rewrite Q in E'.
    assert (T : forall (x b : list entry) a, laid_out a es -> forall e e' r r', es = x ++ e :: r -> es = b ++ e' :: r' -> (length x < length b)%nat -> header_at x e < header_at b e').
    { clear. intros x b a H e e' r r' E1 E2 L. assert (F : exists mid, b = x ++ e :: mid /\ es = x ++ e :: mid ++ e' :: r').
      { rewrite E1 in E2. rewrite E1. clear - E2 L. assert (G : exists mid, b = x ++ e :: mid).
        { revert b E2 L. induction x as [|c x IH]; intros b E2 L; destruct b as [|d b]; cbn [length] in L; try lia; cbn [app] in E2; injection E2 as <- E2.
          - now exists b.
          - destruct (IH b E2 ltac:(lia)) as (mid & ->). now exists mid. }
        destruct G as (mid & ->). exists mid. split; [reflexivity|]. rewrite E2, <- app_assoc. reflexivity. }
      destruct F as (mid & -> & F). now apply (header_at_lt a es x e mid e' r'). }
    destruct (Nat.lt_trichotomy (length x) (length b)) as [L|[L|L]].
    - pose proof (T x b None H1 e e' after af Q ltac:(congruence) L). lia.
    - assert (G : forall (x b : list entry) r r', length x = length b -> x ++ r = b ++ r' -> x = b).
      { clear. induction x as [|c x IH]; intros b r r' L E; destruct b; try discriminate; [reflexivity|]. cbn [app] in E. injection E as <- E. f_equal. eapply IH; eauto. }
      symmetry. now apply (G x b _ _ L E').
    - pose proof (T b x None H1 e' e af after ltac:(congruence) Q L). lia. }
  subst b. destruct C as [C|(b' & p' & C & F)]; [now destruct before|]. apply app_inj_tail in C as [-> ->]. rewrite F in Hp.
  repeat (destruct Hp as [Hp|Hp]; [discriminate|]). destruct Hp.
Qed.
Print Assumptions C92_never_separates.

(** The size that an extended header announces: the value of its last "size" record. *)
Theorem C92_pax_size data size : pax_contents data size ->
  get_pax_size data = match size with Some n => n | None => -1 end.
Proof. exact (get_pax_size_spec data size). Qed.
Print Assumptions C92_pax_size.

(** Header blocks for the examples: name, size field (12 bytes), type flag, prefix field. *)
Definition pad (n : nat) (s : str) : str := s ++ zeros (n - length s).
Definition header (name size : str) (t : ascii) (prefix : str) : str :=
  pad 100 name ++ pad 24 $"0000644" ++ pad 12 size ++ pad 20 $"14000000000 012345" ++ [t] ++ zeros 188 ++ pad 155 prefix ++ zeros 12.
Definition ex_pax : str := pad 512 ($"16 path=abc/def" ++ ["010"%char] ++ $"12 size=700" ++ ["010"%char]).
Definition ex_entries : list entry :=
  [ mkEntry 0 (header $"./pax" $"00000000034" "x" []) ex_pax;
    mkEntry 0 (header $"abc" $"00000000000" "0" []) (repeat "a"%char 1024);
    mkEntry 1 (header $"././@LongLink" $"00000000005 " "L" []) (pad 512 $"long1");
    mkEntry 0 (header $"long" [] "5" []) [];
    mkEntry 0 (header $"e" $"00000000001" "0" []) (pad 512 $"x");
    mkEntry 0 (header $"f" [] "0" []) [] ].

Lemma numeral_of b s : (b <= 10)%nat -> forallb (fun c => (48 <=? nat_of_ascii c)%nat && (nat_of_ascii c <? 48 + b)%nat) s = true ->
  numeral b s (number (Z.of_nat b) s).
Proof.
  intros Hb. induction s as [|c s IH] using rev_ind; intros H; [apply (num_nil b)|].
  rewrite forallb_app in H. apply andb_true_iff in H as [H1 H2]. cbn [forallb] in H2. rewrite andb_true_r, andb_true_iff, Nat.leb_le, Nat.ltb_lt in H2.
  rewrite number_snoc. replace (Z.of_nat (nat_of_ascii c) - 48) with (Z.of_nat (nat_of_ascii c - 48)) by lia.
  replace c with (digit (nat_of_ascii c - 48)) at 1.
  - constructor; [auto|lia].
  - unfold digit. replace (48 + (nat_of_ascii c - 48))%nat with (nat_of_ascii c) by lia. apply ascii_nat_embedding.
Qed.

Lemma size_field_of name digits spaces t prefix n :
  (length name <= 100)%nat -> (length digits + spaces <= 12)%nat -> numeral 8 digits n -> (digits = [] -> spaces = 0%nat) ->
  size_field (header name (digits ++ repeat " "%char spaces) t prefix) n.
Proof.
  intros H1 H2 H3 H4. exists (pad 100 name ++ pad 24 $"0000644"), digits, spaces, (12 - length (digits ++ repeat " "%char spaces))%nat.
  eexists. split; [|split; [|split; [|split; assumption]]].
  - unfold header. unfold pad at 3. rewrite <- !app_assoc. reflexivity.
  - unfold pad. rewrite !app_length. unfold zeros. rewrite !repeat_length. cbn [length list_ascii_of_string]. lia.
  - rewrite app_length, repeat_length. lia.
Qed.

Ltac entry_step n blocks sp ds ann :=
  eapply (laid_cons _ _ _ n _ ann);
  [ reflexivity
  | eexists; split; [left; reflexivity|discriminate]
  | apply (size_field_of _ ds sp); [cbn; lia|cbn; lia|apply (numeral_of 8); [lia|reflexivity]|first [discriminate|reflexivity]]
  | try (left; split; [discriminate|reflexivity]); right; split; reflexivity
  | exists blocks; split; [reflexivity|lia]
  | | ].
Example C92_example_laid_out : laid_out None ex_entries.
Proof.
  unfold ex_entries.
  entry_step 28 1%nat 0%nat $"00000000034" (Some 700).
  { change (if in_dec _ _ _ then ?a else ?b) with a.
    exists [($"path", $"abc/def"); ($"size", $"700")], [$"16 path=abc/def" ++ ["010"%char]; $"12 size=700" ++ ["010"%char]], 484%nat.
    split; [|split; [|reflexivity]].
    - constructor; [|constructor; [|constructor]].
      + exists $"16". split; [reflexivity|]. split; [apply (numeral_of 10); [lia|reflexivity]|]. split; [cbn; lia|]. split; [discriminate|]. cbn. intuition discriminate.
      + exists $"12". split; [reflexivity|]. split; [apply (numeral_of 10); [lia|reflexivity]|]. split; [cbn; lia|]. split; [discriminate|]. cbn. intuition discriminate.
    - apply (ann_size [($"path", $"abc/def")] $"700" None); [apply (ann_other []); [constructor|discriminate]|cbn; lia|apply (numeral_of 10); [lia|reflexivity]]. }
  entry_step 0 2%nat 0%nat $"00000000000" (@None Z); [reflexivity|].
  entry_step 5 1%nat 1%nat $"00000000005" (@None Z); [reflexivity|].
  entry_step 0 0%nat 0%nat ([] : str) (@None Z); [reflexivity|].
  entry_step 1 1%nat 0%nat $"00000000001" (@None Z); [reflexivity|].
  entry_step 0 0%nat 0%nat ([] : str) (@None Z); [reflexivity|].
  constructor.
Qed.
Example C92_example : find_tar_file_offsets (archive ex_entries (zeros 1024)) false =
  ([(0, "x"%char); (3072, "L"%char); (5632, "0"%char)], None) /\ ends_archive false (zeros 1024) /\
  Forall (fun e => (e_zeros e <= 1)%nat) ex_entries.
Proof.
  split; [vm_compute; reflexivity|]. split.
  - exists 2%nat, []. split; [now rewrite app_nil_r|]. left. cbn. lia.
  - unfold ex_entries. repeat (apply Forall_cons; [cbn; lia|]). constructor.
Qed.

(** The walk does not read base-256 sizes, which GNU tar uses from 8 GiB on: it ends with an exception. *)
Theorem C92_base_256_refuted ignore_zeros tail :
  let huge := pad 100 $"huge" ++ pad 24 $"0000644" ++ ("128"%char :: zeros 6 ++ ["002"%char] ++ zeros 4) ++ pad 20 $"14000000000 012345" ++ ["0"%char] ++ zeros 355 in
  length huge = 512%nat /\ find_tar_file_offsets (huge ++ tail) ignore_zeros = ([(0, "0"%char)], Some ValueError).
Proof.
  cbv zeta. split; [reflexivity|]. unfold find_tar_file_offsets.
  erewrite (find_0 _ ignore_zeros _ 0 0 (-1) []); [|cbn [app]; reflexivity|reflexivity|reflexivity|reflexivity]. reflexivity.
Qed.
Print Assumptions C92_base_256_refuted.

(** Nor does it know the extension headers of old GNU sparse files (byte 482 of the header, byte 504 of an extension header): a
    place inside the data of such a file can be reported as a split point.  Here there are two extension headers; the data starts
    at byte 1536 and is 1024 bytes long. *)
Theorem C92_sparse_refuted : exists file, nth 156 file NUL = "S"%char /\ nth 482 file NUL = "001"%char /\
  nth (512 + 504) file NUL = "001"%char /\ nth (1024 + 504) file NUL = NUL /\ raw_size file = $"00000002000" /\ length file = 3584%nat /\
  exists t, In (2048, t) (fst (find_tar_file_offsets file false)).
Proof.
  exists ((pad 100 $"sparse" ++ pad 24 $"0000644" ++ pad 12 $"00000002000" ++ pad 20 $"14000000000 012345" ++ ["S"%char] ++ zeros 325 ++ ["001"%char] ++ zeros 29)
          ++ (pad 504 $"00000000000" ++ ["001"%char] ++ zeros 7) ++ pad 512 $"00000000000" ++ (header $"member1" [] "0" [] ++ header $"member2" [] "0" []) ++ zeros 1024).
  do 6 (split; [reflexivity|]). exists "0"%char. vm_compute. auto.
Qed.
Print Assumptions C92_sparse_refuted.

(** ** C93: detection of GNU incremental archives *)
(** Only an archive that holds a folder entry of an incremental backup (type D) is taken for one. *)
Theorem C93_sound es tail ignore_zeros late is_file_object compressed :
  laid_out None es -> ends_archive ignore_zeros tail -> (ignore_zeros = false -> Forall (fun e => (e_zeros e <= 1)%nat) es) ->
  detect_gnu_incremental (archive es tail) ignore_zeros late is_file_object compressed = true ->
  exists e, In e es /\ flag e = "D"%char.
Proof.
  intros H1 H2 H3 H. unfold detect_gnu_incremental in H. apply look_sound in H as (o & H).
  rewrite (find_points es tail ignore_zeros H1 H2 H3) in H. apply points_In in H as (before & e & after & -> & Q & _). injection Q as _ Q.
  exists e. split; [apply in_or_app; right; now left|now symmetry].
Qed.
Print Assumptions C93_sound.

(** An archive that starts with such an entry is recognised, whatever comes next, even if that cannot be read. *)
Theorem C93_first file ignore_zeros late is_file_object compressed :
  (512 <= length file)%nat -> nth 156 file NUL = "D"%char ->
  detect_gnu_incremental file ignore_zeros late is_file_object compressed = true.
Proof.
  intros H1 H2. unfold detect_gnu_incremental. destruct (first_yield file ignore_zeros H1) as (l & ->); [rewrite H2; discriminate|]. now rewrite H2.
Qed.
Print Assumptions C93_first.

(** Otherwise, it is recognised if such an entry follows a regular file, fewer than 1000 entries (10000 for an uncompressed file
    on disk) precede it, and the search is done in time. *)
Theorem C93_complete es tail ignore_zeros late is_file_object compressed before e after :
  laid_out None es -> ends_archive ignore_zeros tail -> (ignore_zeros = false -> Forall (fun e => (e_zeros e <= 1)%nat) es) ->
  (forall i, late i = false) ->
  es = before ++ e :: after -> flag e = "D"%char -> cut_here before ->
  len before < (if is_file_object || compressed then 1000 else 10000) ->
  detect_gnu_incremental (archive es tail) ignore_zeros late is_file_object compressed = true.
Proof.
  intros H1 H2 H3 Hl -> He Hc Hn. unfold detect_gnu_incremental. rewrite (find_points _ tail ignore_zeros H1 H2 H3). cbn [fst].
  destruct (points_app before (e :: after) 0 true) as (pos' & first' & -> & F1 & F2).
  assert (F : first' = true).
  { destruct Hc as [->|(b & p & -> & Hp)]; [now apply F1|]. rewrite (F2 b p eq_refl), Hp. reflexivity. }
  cbn [points]. rewrite F, He. cbn [app]. apply look_complete; [assumption|].
  pose proof (points_length before 0 true). unfold len in *. lia.
Qed.
Print Assumptions C93_complete.

(** Not every archive that holds such an entry is recognised: here the folder's name is so long that a long-name entry precedes it. *)
Theorem C93_refuted : exists es tail, laid_out None es /\ ends_archive false tail /\ Forall (fun e => (e_zeros e <= 1)%nat) es /\
  (exists e, In e es /\ flag e = "D"%char) /\ detect_gnu_incremental (archive es tail) false (fun _ => false) false false = false.
Proof.
  exists [ mkEntry 0 (header $"././@LongLink" $"00000000145" "L" []) (pad 512 (repeat "n"%char 100 ++ $"/"));
           mkEntry 0 (header (repeat "n"%char 100) $"00000000002" "D" $"14000000000") (pad 512 $"Y");
           mkEntry 0 (header $"f" [] "0" $"14000000000") [] ], (zeros 1024).
  split.
  { entry_step 101 1%nat 0%nat $"00000000145" (@None Z); [reflexivity|].
    entry_step 2 1%nat 0%nat $"00000000002" (@None Z); [reflexivity|].
    entry_step 0 0%nat 0%nat ([] : str) (@None Z); [reflexivity|]. constructor. }
  split; [exists 2%nat, []; split; [now rewrite app_nil_r|]; left; cbn; lia|].
  split; [repeat (apply Forall_cons; [cbn; lia|]); constructor|].
  split; [eexists; split; [right; left; reflexivity|reflexivity]|]. vm_compute. reflexivity.
Qed.
Print Assumptions C93_refuted.

Example C93_example : exists es, laid_out None es /\
  (exists before e after, es = before ++ e :: after /\ before <> [] /\ flag e = "D"%char /\ cut_here before) /\
  detect_gnu_incremental (archive es (zeros 1024)) false (fun _ => false) false false = true.
Proof.
  exists [ mkEntry 0 (header $"f" [] "0" $"14000000000") []; mkEntry 0 (header $"d" $"00000000002" "D" $"14000000000") (pad 512 $"Y") ].
  split.
  { entry_step 0 0%nat 0%nat ([] : str) (@None Z); [reflexivity|].
    entry_step 2 1%nat 0%nat $"00000000002" (@None Z); [reflexivity|]. constructor. }
  split; [|vm_compute; reflexivity].
  eexists [_], _, []. split; [reflexivity|]. split; [discriminate|]. split; [reflexivity|]. right. exists [], (mkEntry 0 (header $"f" [] "0" $"14000000000") []). auto.
Qed.

(** ** C94: names of the members of an incremental archive *)
(** tarfile reports "time/name" if the prefix field holds a time.  The time is removed. *)
Theorem C94_time_removed file offset name time after_long_ : member_at file offset name time after_long_ ->
  ~ In slash time -> (length time < 155)%nat -> fix_name file offset (time ++ slash :: name) = name.
Proof. intros. eapply fix_name_own; eassumption. Qed.
Print Assumptions C94_time_removed.

(** For a long name, tarfile reports the long name without the time: it is kept, unless its first folder is named like the time. *)
Theorem C94_long_name_kept file offset name time first rest : member_at file offset name time true ->
  ~ In slash first -> ~ In "000"%char first -> first <> time -> fix_name file offset (first ++ slash :: rest) = first ++ slash :: rest.
Proof. intros. eapply fix_name_other; eassumption. Qed.
Print Assumptions C94_long_name_kept.

(** A name without a slash is kept, and so is a name in a header whose prefix field is empty or a path of several folders. *)
Theorem C94_kept file offset name prefix after_long_ reported : member_at file offset name prefix after_long_ ->
  ~ In "000"%char reported ->
  (~ In slash reported \/ prefix = [] /\ (forall r, reported <> slash :: r) \/ In slash prefix) -> fix_name file offset reported = reported.
Proof.
  intros H Hn D. destruct (split1 slash reported) as [[a b]|] eqn:E; [|unfold fix_name; now rewrite E].
  apply split1_Some in E as [-> Ha]. destruct D as [D|D]; [exfalso; apply D, in_or_app; right; now left|].
  eapply fix_name_other; [eassumption|assumption| |].
  - intros I. apply Hn, in_or_app. now left.
  - destruct D as [[-> D]|D]; [|congruence]. intros ->. now apply (D b).
Qed.
Print Assumptions C94_kept.

(** But a member of POSIX (ustar) form in the same archive, whose prefix field holds one folder, loses that folder. *)
Theorem C94_refuted : exists file offset name folder, member_at file offset name folder false /\ ~ In slash folder /\ folder = $"folder" /\
  fix_name file offset (folder ++ slash :: name) <> folder ++ slash :: name.
Proof.
  exists (header (repeat "n"%char 99) [] "0" $"folder"), 0, (repeat "n"%char 99), $"folder".
  assert (M : member_at (header (repeat "n"%char 99) [] "0" $"folder") 0 (repeat "n"%char 99) $"folder" false).
  { apply (plain _ _ (header (repeat "n"%char 99) [] "0" $"folder")); [lia|reflexivity| |discriminate].
    exists (pad 100 (repeat "n"%char 99)), (pad 24 $"0000644" ++ pad 12 [] ++ pad 20 $"14000000000 012345" ++ ["0"%char] ++ zeros 188), (pad 155 $"folder"), (zeros 12).
    split; [reflexivity|]. split; [reflexivity|]. split; [|split; [|reflexivity]].
    - split; [reflexivity|]. split; [|right; exists []; reflexivity]. intros I. apply repeat_spec in I. discriminate I.
    - split; [reflexivity|]. split; [cbn; intuition discriminate|]. right. exists (zeros 148). reflexivity. }
  split; [exact M|]. split; [cbn; intuition discriminate|]. split; [reflexivity|]. vm_compute. discriminate.
Qed.
Print Assumptions C94_refuted.

(** All members of an archive.  A member has a position, a type flag, the name that tarfile reports and its real name. *)
Definition restorable (file : str) (m : Z * ascii * str * str) : Prop :=
  let '(offset, t, reported, real) := m in
  exists name time long, member_at file offset name time long /\ ~ In slash time /\
    ((length time < 155)%nat /\ reported = time ++ slash :: name /\ real = name \/
     reported = real /\ (~ In slash real \/ exists first rest, real = first ++ slash :: rest /\ ~ In slash first /\ ~ In "000"%char first /\ first <> time)).
Lemma fix_restores file offset t reported real : restorable file (offset, t, reported, real) -> fix_name file offset reported = real.
Proof.
  intros (name & time & long & M & Hs & [(Hl & -> & ->)|(-> & [H|(first & rest & -> & H1 & H2 & H3)])]).
  - eapply fix_name_own; eassumption.
  - unfold fix_name. now rewrite (proj2 (split1_None slash real) H).
  - eapply fix_name_other; eassumption.
Qed.
(** If the archive is recognised, or if its first member is a folder entry, all members get their real names. *)
Theorem C94_all_names file incremental ms : Forall (restorable file) ms ->
  (incremental = true \/ match ms with (_, t, _, _) :: _ => t = "D"%char | [] => True end) ->
  process_names file incremental (map (fun '(offset, t, reported, _) => (offset, t, reported)) ms) = map snd ms.
Proof.
  intros H. assert (T : forall ms, Forall (restorable file) ms ->
    process_names file true (map (fun '(offset, t, reported, _) => (offset, t, reported)) ms) = map snd ms).
  { clear. induction 1 as [|[[[o t] rep] real] ms Hm _ IH]; [reflexivity|]. cbn [map process_names snd]. unfold process_name.
    rewrite andb_false_r. now rewrite IH, (fix_restores file o t rep real Hm). }
  intros [->|D]; [now apply T|]. destruct ms as [|[[[o t] rep] real] ms]; [reflexivity|]. subst t.
  apply Forall_cons_iff in H as [Hm H]. cbn [map process_names snd]. unfold process_name.
  destruct incremental; cbn [negb andb char_eqb Ascii.eqb Bool.eqb]; now rewrite (T ms H), (fix_restores file o _ rep real Hm).
Qed.
Print Assumptions C94_all_names.

(** Otherwise the members before the first folder entry keep the time in their names: here a symbolic link comes first. *)
Theorem C94_all_names_refuted : exists file ms, Forall (restorable file) ms /\ In "D"%char (map (fun '(_, t, _, _) => t) ms) /\
  process_names file (detect_gnu_incremental file false (fun _ => false) false false)
    (map (fun '(offset, t, reported, _) => (offset, t, reported)) ms) <> map snd ms.
Proof.
  exists (header $"link" [] "2" $"14000000000" ++ header $"dir" [] "D" $"14000000000" ++ zeros 1024),
    [(0, "2"%char, $"14000000000/link", $"link"); (512, "D"%char, $"14000000000/dir", $"dir")].
  split; [|split; [right; left; reflexivity|vm_compute; discriminate]].
  assert (F : forall name t, In (name, t) [($"link", "2"%char); ($"dir", "D"%char)] -> header_fields (header name [] t $"14000000000") name $"14000000000").
  { intros name t I.
    exists (pad 100 name), (pad 24 $"0000644" ++ pad 12 [] ++ pad 20 $"14000000000 012345" ++ [t] ++ zeros 188), (pad 155 $"14000000000"), (zeros 12).
    split; [unfold header; now rewrite <- !app_assoc|]. split; [reflexivity|].
    assert (N : length (pad 100 name) = 100%nat /\ ~ In "000"%char name /\ exists r, pad 100 name = name ++ "000"%char :: r).
    { destruct I as [[= <- <-]|[[= <- <-]|[]]]; (split; [reflexivity|]); (split; [cbn; intuition discriminate|]); eexists; reflexivity. }
    destruct N as (N1 & N2 & r & N3). split; [split; [assumption|]; split; [assumption|]; right; now exists r|].
    split; [split; [reflexivity|]; split; [cbn; intuition discriminate|]; right; exists (zeros 143); reflexivity|].
    destruct I as [[= <- <-]|[[= <- <-]|[]]]; reflexivity. }
  constructor; [|constructor; [|constructor]].
  - exists $"link", $"14000000000", false. split; [apply (plain _ _ (header $"link" [] "2" $"14000000000")); [lia|reflexivity|apply F; left; reflexivity|discriminate]|].
    split; [cbn; intuition discriminate|]. left. split; [cbn; lia|]. split; reflexivity.
  - exists $"dir", $"14000000000", false. split; [apply (plain _ _ (header $"dir" [] "D" $"14000000000")); [lia|reflexivity|apply F; right; left; reflexivity|discriminate]|].
    split; [cbn; intuition discriminate|]. left. split; [cbn; lia|]. split; reflexivity.
Qed.
Print Assumptions C94_all_names_refuted.

(** An archive with a folder entry, a file, and a file with a long link. *)
Example C94_example :
  let file := header $"dir/" [] "D" $"14000000000" ++ header $"dir/f" [] "0" $"14000000000" ++
              header $"././@LongLink" $"00000000170" "K" [] ++ pad 512 (repeat "t"%char 120) ++ header $"dir/link" [] "2" $"14000000000" in
  process_names file false [(0, "D"%char, $"14000000000/dir"); (512, "0"%char, $"14000000000/dir/f"); (1024, "2"%char, $"14000000000/dir/link")] =
    [$"dir"; $"dir/f"; $"dir/link"] /\
  member_at file 1024 $"dir/link" $"14000000000" true.
Proof.
  cbv zeta. split; [vm_compute; reflexivity|].
  apply (after_long _ _ (header $"dir/link" [] "2" $"14000000000") _ _ (header $"././@LongLink" $"00000000170" "K" []) [] 120 1); [lia|reflexivity| | |lia|lia|reflexivity|].
  - exists (pad 100 $"././@LongLink"), (pad 24 $"0000644" ++ pad 12 $"00000000170" ++ pad 20 $"14000000000 012345" ++ ["K"%char] ++ zeros 188), (zeros 155), (zeros 12).
    split; [reflexivity|]. split; [reflexivity|]. split; [|split; [|reflexivity]].
    + split; [reflexivity|]. split; [cbn; intuition discriminate|]. right. exists (zeros 86). reflexivity.
    + split; [reflexivity|]. split; [intros []|]. right. exists (zeros 154). reflexivity.
  - apply (size_field_of _ $"00000000170" 0); [cbn; lia|cbn; lia|apply (numeral_of 8); [lia|reflexivity]|discriminate].
  - exists (pad 100 $"dir/link"), (pad 24 $"0000644" ++ pad 12 [] ++ pad 20 $"14000000000 012345" ++ ["2"%char] ++ zeros 188), (pad 155 $"14000000000"), (zeros 12).
    split; [reflexivity|]. split; [reflexivity|]. split; [|split; [|reflexivity]].
    + split; [reflexivity|]. split; [cbn; intuition discriminate|]. right. exists (zeros 91). reflexivity.
    + split; [reflexivity|]. split; [cbn; intuition discriminate|]. right. exists (zeros 143). reflexivity.
Qed.
