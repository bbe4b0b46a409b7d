(** Property C72: an SQLAR archive is served as the tree of its table. *)
From Coq Require Import Ascii String.
From Verif Require Import PyBase PyDict PyStr Path_Model Path_Spec Path_Proofs FileInfo Rar_Proofs Sqlar_Model Sqlar_Spec Sqlar_Proofs.
Local Open Scope Z_scope.

(** A folder lists, once each, exactly the names of the rows directly below it, both with and without attributes; and what is listed is
    what can be looked up.  Missing for the full property: folders without a row of their own, names with "..", and folder names with
    the characters that GLOB treats specially (see the refutations). *)
Theorem C72_listing_partial :
  forall table now uid gid loc n,
  proper_table table -> Forall (fun r => stays (s_name r)) table -> parents_present table -> Forall proper_name loc -> plain_text (join $"/" loc) ->
  (In n (listed (sqlar_list table uid gid (written loc))) <-> exists r, In r table /\ denotes (s_name r) = loc ++ [n]) /\
  NoDup (listed (sqlar_list table uid gid (written loc))) /\
  (In n (listed_modes (sqlar_list_mode table (written loc))) <-> exists r, In r table /\ denotes (s_name r) = loc ++ [n]) /\
  (In n (listed (sqlar_list table uid gid (written loc))) <-> proper_name n /\ exists f, sqlar_lookup table now uid gid (written (loc ++ [n])) = Some f).
Proof.
  intros table now uid gid loc n PT ST PP H P.
  assert (A : (In n (listed (sqlar_list table uid gid (written loc))) <-> exists r, In r table /\ denotes (s_name r) = loc ++ [n]) /\
              NoDup (listed (sqlar_list table uid gid (written loc))) /\
              (In n (listed_modes (sqlar_list_mode table (written loc))) <-> exists r, In r table /\ denotes (s_name r) = loc ++ [n])).
  { unfold sqlar_list, sqlar_list_mode. destruct (files table) as [|f fs] eqn:F.
    - cbn [listed listed_modes].
      assert (K : forall V (value : str * srow -> V), In n (map fst (dict_of str_eqb (map (fun x => (fst x, value x)) (select_folder table (written loc))))) <->
                  exists r, In r table /\ denotes (s_name r) = loc ++ [n]).
      { intros V value. change (map fst ?d) with (dkeys d) at 1. unfold dict_of. rewrite (In_dkeys_dupdate str_eqb str_eqb_spec). unfold dkeys. cbn [map In].
        rewrite map_map. cbn [fst]. rewrite in_map_iff. split.
        - intros [[]|([m r] & <- & I)]. apply (select_spec table ST) in I; [|assumption..]. now exists r.
        - intros (r & R). right. exists (n, r). split; [reflexivity|]. now apply (select_spec table ST). }
      assert (E : forall V (value : str -> srow -> V), map (fun '(n, r) => (n, value n r)) (select_folder table (written loc)) =
                  map (fun x => (fst x, value (fst x) (snd x))) (select_folder table (written loc))).
      { intros V value. apply map_ext. now intros [a b]. }
      rewrite (E _ (fun _ r => sqlar_info uid gid r)), (E _ (fun _ r => s_mode r)).
      split; [apply (K _ (fun x => sqlar_info uid gid (snd x)))|]. split; [|apply (K _ (fun x => s_mode (snd x)))].
      apply (NoDup_dupdate str_eqb str_eqb_spec). constructor.
    - assert (N : files table <> []) by congruence. cbn [listed listed_modes].
      assert (K : In n (list_names table (written loc)) <-> exists r, In r table /\ denotes (s_name r) = loc ++ [n]).
      { rewrite (list_names_spec table ST) by assumption. split.
        - intros (r & [|m rest] & R & D); [now exists r|]. apply (PP r (loc ++ [n]) m rest R); [now rewrite D, <- app_assoc|now destruct loc].
        - intros (r & R & D). now exists r, []. }
      split; [exact K|]. split; [|exact K]. unfold list_names. apply (collect_nodup _ (files table) []). constructor. }
  destruct A as (A1 & A2 & A3). split; [exact A1|]. split; [exact A2|]. split; [exact A3|]. rewrite A1. split.
  - intros (r & R & D). assert (Pn : Forall proper_name (loc ++ [n])) by (rewrite <- D; apply denotes_proper).
    split; [apply Forall_app in Pn as (_ & Pn); now apply Forall_inv in Pn|].
    destruct (last_row_exists table (loc ++ [n])) as (r' & L); [now exists r|]. exists (sqlar_info uid gid r').
    apply (lookup_last table PT ST); [exact Pn|now destruct loc|exact L].
  - intros (Pn & f & L). assert (Pl : Forall proper_name (loc ++ [n])) by (apply Forall_app; split; [exact H|]; constructor; [exact Pn|constructor]).
    destruct (in_dec (list_eq_dec (list_eq_dec ascii_dec)) (loc ++ [n]) (map (fun r => denotes (s_name r)) table)) as [I|I].
    + apply in_map_iff in I as (r & D & R). now exists r.
    + rewrite (lookup_none table ST) in L; [discriminate|exact Pl|now destruct loc|]. intros r R D. apply I. apply in_map_iff. now exists r.
Qed.
Print Assumptions C72_listing_partial.

(** Looking up a location gives the attributes of its row (the newest one if several names lead there), the root is a folder, and nothing
    is found where the table has nothing.  No folder row is needed for this. *)
Theorem C72_lookup_partial :
  forall table now uid gid loc, proper_table table -> Forall (fun r => stays (s_name r)) table -> Forall proper_name loc ->
  let found := sqlar_lookup table now uid gid (written loc) in
  (loc = [] -> exists f, found = Some f /\ is_dir_mode (fi_mode f) = true) /\
  (loc <> [] -> (found = None <-> forall r, In r table -> denotes (s_name r) <> loc)) /\
  (forall r, loc <> [] -> last_row table loc r ->
     exists f, found = Some f /\ fi_mode f = s_mode r /\ fi_mtime f = s_mtime r /\ (0 <= s_sz r -> fi_size f = s_sz r /\ fi_linkname f = []) /\
       (forall target, s_sz r = -1 -> s_data r = Some target -> fi_linkname f = target /\ fi_size f = 0) /\ fi_uid f = uid /\ fi_gid f = gid).
Proof.
  intros table now uid gid loc PT ST H found. subst found. split; [|split].
  - intros ->. eexists. split; reflexivity.
  - intros N. split; [|intros A; now apply (lookup_none table ST)]. intros E r R D.
    destruct (last_row_exists table loc) as (r' & L); [now exists r|]. rewrite (lookup_last table PT ST now uid gid loc r') in E by assumption. discriminate.
  - intros r N L. rewrite (lookup_last table PT ST now uid gid loc r) by assumption. eexists. split; [reflexivity|]. cbn.
    split; [reflexivity|]. split; [reflexivity|]. split; [|split; [|now split]].
    + intros S. split; [lia|]. destruct (Z.eqb_spec (s_sz r) (-1)); [lia|reflexivity].
    + intros target -> ->. now split.
Qed.
Print Assumptions C72_lookup_partial.

(** The attributes in a listing are the attributes that are looked up. *)
Theorem C72_listed_attributes_partial :
  forall table now uid gid loc n l, proper_table table -> Forall (fun r => stays (s_name r)) table -> Forall proper_name loc -> plain_text (join $"/" loc) ->
  sqlar_list table uid gid (written loc) = Infos l ->
  forall f, In (n, f) l -> sqlar_lookup table now uid gid (written (loc ++ [n])) = Some f /\
    (forall m, sqlar_list_mode table (written loc) = inr m -> In (n, fi_mode f) m).
Proof.
  intros table now uid gid loc n l PT ST H P E f I. unfold sqlar_list in E. unfold sqlar_list_mode. destruct (files table) as [|q qs] eqn:F; [|discriminate].
  injection E as <-.
  assert (ND : forall V (value : srow -> V), dict_of str_eqb (map (fun '(n, r) => (n, value r)) (select_folder table (written loc))) =
               map (fun '(n, r) => (n, value r)) (select_folder table (written loc))).
  { intros V value. apply dict_of_nodup. rewrite map_map. rewrite (map_ext _ fst) by now intros [a b]. now apply (select_nodup table PT ST). }
  rewrite ND in I. rewrite (ND _ s_mode). apply in_map_iff in I as ([m r] & Q & I). injection Q as -> <-. split.
  - apply (select_spec table ST) in I; [|assumption..]. destruct I as (R & D).
    assert (Pl : Forall proper_name (loc ++ [n])) by (rewrite <- D; apply denotes_proper).
    apply (lookup_last table PT ST); [exact Pl|now destruct loc|]. destruct (in_split r table R) as (b & a & T). exists b, a. split; [exact T|]. split; [exact D|].
    apply Forall_forall. intros x X Dx. assert (x = r).
    { apply (NoDup_denotes table PT ST F); [rewrite T; apply in_or_app; right; now right|exact R|now rewrite Dx]. }
    subst x. destruct PT as (_ & N). rewrite T, map_app in N. cbn [map] in N. apply NoDup_remove_2 in N. apply N. apply in_or_app. right. now apply in_map.
  - intros m' M. injection M as <-. apply in_map_iff. exists (n, r). now split.
Qed.
Print Assumptions C72_listed_attributes_partial.

(** Opening a looked up file gives the content that was stored, compressed or not. *)
Theorem C72_open :
  forall table now uid gid loc r (deflate : str -> str) (inflate : str -> res str) content,
  proper_table table -> Forall (fun r => stays (s_name r)) table -> Forall proper_name loc -> loc <> [] ->
  last_row table loc r -> stored deflate content r -> (forall s, inflate (deflate s) = Ok s) ->
  exists f, sqlar_lookup table now uid gid (written loc) = Some f /\ fi_size f = Z.of_nat (length content) /\ sqlar_open table inflate f = Ok content.
Proof.
  intros table now uid gid loc r deflate inflate content PT ST H N L (S & D) B. exists (sqlar_info uid gid r).
  split; [now apply (lookup_last table PT ST)|]. split; [cbn; lia|]. unfold sqlar_open. cbn [sqlar_info fi_userdata last].
  destruct (last_row_In table loc r L) as (I & _). rewrite (find_key Z.eqb Z.eqb_spec s_rowid) by (try apply PT; exact I). rewrite D.
  destruct (Nat.ltb_spec (length (deflate content)) (length content)) as [Q|Q].
  - destruct (Z.eqb_spec (s_sz r) (len (deflate content))) as [Z|Z]; [unfold len in Z; lia|apply B].
  - destruct (Z.eqb_spec (s_sz r) (len content)) as [Z|Z]; [reflexivity|]. exfalso. apply Z. now rewrite S.
Qed.
Print Assumptions C72_open.

(** ** A table that meets the hypotheses, in both ways *)
Definition row name id mode sz data := mkSrow $name id mode 5 sz (option_map (fun s => list_ascii_of_string s) data).
Definition normal_table := [row "d" 1 16877 0 None; row "d/a" 2 33188 3 (Some "abc"%string); row "d/l" 3 41471 (-1) (Some "a"%string); row "f" 7 33188 9 (Some "z"%string)].
Definition other_table := [row "./d" 1 16877 0 None; row "d//a" 2 33188 3 (Some "abc"%string); row "/d/a" 3 33188 2 (Some "xy"%string)].
Ltac meets := repeat match goal with
  | |- NoDup _ => constructor
  | |- ~ _ => let H := fresh in intros H; cbn in H; repeat (destruct H as [H|H]; [discriminate H|]); exact H
  | |- Forall _ (_ :: _) => constructor
  | |- Forall _ [] => constructor
  end.
Example C72_nontrivial :
  (proper_table normal_table /\ Forall (fun r => stays (s_name r)) normal_table /\ parents_present normal_table) /\
  (proper_table other_table /\ Forall (fun r => stays (s_name r)) other_table /\ parents_present other_table) /\
  listed (sqlar_list normal_table 1 2 $"/d") = [$"a"; $"l"] /\ listed (sqlar_list other_table 1 2 $"/") = [$"d"] /\
  option_map (fun f => fi_size f) (sqlar_lookup other_table 0 1 2 $"/d/a") = Some 2 /\
  option_map (fun f => fi_linkname f) (sqlar_lookup normal_table 0 1 2 $"/d/l") = Some $"a".
Proof.
  assert (S : forall name, denotes name <> [] -> existsb (str_eqb $"..") (split slash name) = false -> stays name).
  { intros name D E. split; [exact D|]. intros I. assert (existsb (str_eqb $"..") (split slash name) = true); [|congruence].
    apply existsb_exists. exists $"..". split; [exact I|reflexivity]. }
  assert (T : forall table, Forall (fun r => Forall (fun k => firstn k (denotes (s_name r)) = [] \/ In (firstn k (denotes (s_name r))) (map (fun r => denotes (s_name r)) table))
                 (seq 0 (length (denotes (s_name r))))) table -> parents_present table).
  { intros table F r loc n rest I D N. rewrite Forall_forall in F. specialize (F r I). rewrite Forall_forall in F.
    destruct (F (length loc)) as [Z|Z].
    - apply in_seq. rewrite D, app_length. cbn [length]. lia.
    - rewrite D, firstn_app, firstn_all, Nat.sub_diag in Z. cbn [firstn] in Z. now rewrite app_nil_r in Z.
    - rewrite D, firstn_app, firstn_all, Nat.sub_diag in Z. cbn [firstn] in Z. rewrite app_nil_r in Z. apply in_map_iff in Z as (r' & E & R). now exists r'. }
  split; [|split].
  - split; [split; cbn; meets|]. split; [repeat (apply Forall_cons || apply Forall_nil); (apply S; [discriminate|reflexivity])|]. apply T. cbn. repeat (apply Forall_cons || apply Forall_nil); cbn; intuition.
  - split; [split; cbn; meets|]. split; [repeat (apply Forall_cons || apply Forall_nil); (apply S; [discriminate|reflexivity])|]. apply T. cbn. repeat (apply Forall_cons || apply Forall_nil); cbn; intuition.
  - repeat split; reflexivity.
Qed.

(** ** Where the property fails *)
(** A folder with "[" in its name lists as empty although its files can be looked up. *)
Theorem C72_bracket_refuted : exists table r loc n, proper_table table /\ parents_present table /\ In r table /\ denotes (s_name r) = loc ++ [n] /\
  s_name r = join $"/" (denotes (s_name r)) /\
  forall now uid gid, listed (sqlar_list table uid gid (written loc)) = [] /\ exists f, sqlar_lookup table now uid gid (written (loc ++ [n])) = Some f.
Proof.
  exists [row "a[b]" 1 16877 0 None; row "a[b]/f" 2 33188 1 (Some "x"%string)], (row "a[b]/f" 2 33188 1 (Some "x"%string)), [$"a[b]"], $"f".
  split; [split; cbn; meets|]. split.
  { intros r loc n rest [<-|[<-|[]]] D N; cbn in D.
    - destruct loc as [|x [|y loc]]; [congruence|discriminate|discriminate].
    - destruct loc as [|x [|y [|z loc]]]; [congruence| |discriminate|discriminate]. injection D as <- <- <-. eexists. split; [left; reflexivity|reflexivity]. }
  split; [right; now left|]. split; [reflexivity|]. split; [reflexivity|]. intros. split; [reflexivity|]. eexists. reflexivity.
Qed.
Print Assumptions C72_bracket_refuted.

(** A folder with "?" in its name lists the files of other folders. *)
Theorem C72_question_mark_refuted : exists table n, proper_table table /\ (forall r, In r table -> denotes (s_name r) <> [$"a?"; n]) /\
  forall uid gid, In n (listed (sqlar_list table uid gid $"/a?")).
Proof.
  exists [row "a?" 1 16877 0 None; row "ab" 2 16877 0 None; row "ab/f" 3 33188 1 (Some "x"%string)], $"f". split; [split; cbn; meets|]. split.
  - intros r [<-|[<-|[<-|[]]]]; discriminate.
  - intros. now left.
Qed.
Print Assumptions C72_question_mark_refuted.

(** Files whose folder has no row of its own: they cannot be reached from the root, or the folder is listed but not found. *)
Theorem C72_missing_parents_refuted :
  (exists table r, proper_table table /\ In r table /\ denotes (s_name r) = [$"d"; $"f"] /\ forall now uid gid,
     listed (sqlar_list table uid gid $"/") = [] /\ sqlar_lookup table now uid gid $"/d" = None) /\
  (exists table r, proper_table table /\ In r table /\ denotes (s_name r) = [$"d"; $"f"] /\ forall now uid gid,
     listed (sqlar_list table uid gid $"/") = [$"d"] /\ sqlar_lookup table now uid gid $"/d" = None).
Proof.
  split; [exists [row "d/f" 1 33188 1 (Some "x"%string)], (row "d/f" 1 33188 1 (Some "x"%string))|exists [row "./d/f" 1 33188 1 (Some "x"%string)], (row "./d/f" 1 33188 1 (Some "x"%string))];
    (split; [split; cbn; meets|]; split; [now left|]; split; [reflexivity|]; intros; split; reflexivity).
Qed.
Print Assumptions C72_missing_parents_refuted.

(** Names with ".." appear as a folder "..". *)
Theorem C72_dots_refuted : exists table, proper_table table /\ forall uid gid, listed (sqlar_list table uid gid $"/") = [$".."].
Proof. exists [row "./../f" 1 33188 1 (Some "x"%string)]. split; [split; cbn; meets|]. intros. reflexivity. Qed.
Print Assumptions C72_dots_refuted.

(** A missing path lists as an empty folder instead of not at all, and so does a file. *)
Theorem C72_missing_list_refuted : exists table, proper_table table /\ forall now uid gid,
  sqlar_lookup table now uid gid $"/missing" = None /\ sqlar_list table uid gid $"/missing" = Infos [] /\
  option_map (fun f => fi_mode f) (sqlar_lookup table now uid gid $"/f") = Some 33188 /\ sqlar_list table uid gid $"/f" = Infos [].
Proof. exists [row "f" 1 33188 1 (Some "x"%string)]. split; [split; cbn; meets|]. intros. repeat split. Qed.
Print Assumptions C72_missing_list_refuted.
