(** C82: what [ls] shows on a mounted folder can be inspected, and the other way round.
    C83: attribute changes on a writable mount show.  C84: file system statistics. *)
From Coq Require Import Ascii String.
From Verif Require Import PyBase PyDict PyStr Path_Model Path_Spec Path_Proofs FileInfo Front_Spec Front_Model Front_Proofs.
Local Open Scope Z_scope.

(** A small mount source used in the examples: a folder d with a file f and a link l, and a file named like the database. *)
Definition ex_db : str := $".ratarmount.overlay.sqlite".
Definition ex_lookup (p : str) : option (finfo nat) :=
  if str_eqb p $"/" || str_eqb p $"" then Some (mkInfo 0 7 (16384 + 493) $"" 0 0 [])
  else if str_eqb p $"/d" then Some (mkInfo 0 7 (16384 + 448) $"" 1 2 [])
  else if str_eqb p $"/d/f" then Some (mkInfo 1000 9 (32768 + 420) $"" 3 4 [])
  else if str_eqb p $"/d/l" then Some (mkInfo 0 9 (40960 + 511) $"f" 3 4 [])
  else if str_eqb p ($"/d/" ++ ex_db) then Some (mkInfo 5 9 (32768 + 420) $"" 3 4 [])
  else None.
Definition ex_list (p : str) : listing :=
  if str_eqb p $"/" then NameList [$"d"]
  else if str_eqb p $"/d" then ModeDict [($"f", 32768); ($"l", 40960); (ex_db, 32768)]
  else NoListing.

Lemma ex_cases loc n i : Forall proper_name loc -> proper_name n -> ex_lookup (written (loc ++ [n])) = Some i ->
  (loc = [] /\ n = $"d") \/ (loc = [$"d"] /\ (n = $"f" \/ n = $"l" \/ n = ex_db)).
Proof.
  intros Hl Hn H. unfold ex_lookup in H. assert (Hp : Forall proper_name (loc ++ [n])) by (apply Forall_app; auto).
  assert (P : proper_name $"d" /\ proper_name $"f" /\ proper_name $"l" /\ proper_name ex_db).
  { unfold proper_name. repeat split; try discriminate; cbn; intuition discriminate. }
  destruct P as (P1 & P2 & P3 & P4).
  assert (S2 : forall a b, loc ++ [n] = [a; b] -> loc = [a] /\ n = b).
  { intros a b E. change [a; b] with ([a] ++ [b]) in E. apply app_inj_tail in E. assumption. }
  destruct (str_eqb_spec (written (loc ++ [n])) $"/") as [E|_].
  { apply (written_inj _ []) in E; [destruct loc; discriminate|assumption|constructor]. }
  destruct (str_eqb_spec (written (loc ++ [n])) $"") as [E|_]; [discriminate|]. cbn [orb] in H.
  destruct (str_eqb_spec (written (loc ++ [n])) $"/d") as [E|_].
  { apply (written_inj _ [$"d"]) in E; [|assumption|auto]. left. destruct loc as [|x [|]]; try discriminate. injection E as ->. auto. }
  right.
  destruct (str_eqb_spec (written (loc ++ [n])) $"/d/f") as [E|_].
  { apply (written_inj _ [$"d"; $"f"]) in E; [|assumption|auto]. apply S2 in E as []. auto. }
  destruct (str_eqb_spec (written (loc ++ [n])) $"/d/l") as [E|_].
  { apply (written_inj _ [$"d"; $"l"]) in E; [|assumption|auto]. apply S2 in E as []. auto. }
  destruct (str_eqb_spec (written (loc ++ [n])) ($"/d/" ++ ex_db)) as [E|_]; [|discriminate].
  apply (written_inj _ [$"d"; ex_db]) in E; [|assumption|auto]. apply S2 in E as []. auto.
Qed.

Example ex_coherent : coherent ex_lookup ex_list.
Proof.
  assert (L : forall loc, Forall proper_name loc -> listing_names (ex_list (written loc)) <> [] ->
              (loc = [] /\ ex_list (written loc) = NameList [$"d"]) \/
              (loc = [$"d"] /\ ex_list (written loc) = ModeDict [($"f", 32768); ($"l", 40960); (ex_db, 32768)])).
  { intros loc H. unfold ex_list. destruct (str_eqb_spec (written loc) $"/") as [E|_].
    - apply written_root in E; [|assumption]. auto.
    - destruct (str_eqb_spec (written loc) $"/d") as [E|_]; [|cbn; congruence].
      apply (written_inj _ [$"d"]) in E; [auto|assumption|].
      constructor; [|constructor]. repeat split; try discriminate. cbn. intuition discriminate. }
  split.
  - intros loc n H Hi. destruct (L loc H) as [[-> E]|[-> E]]; [intros E; rewrite E in Hi; destruct Hi| |]; rewrite E in Hi; cbn in Hi;
      repeat destruct Hi as [<-|Hi]; try contradiction; (split; [|discriminate]);
      repeat split; try discriminate; cbn; intuition discriminate.
  - intros loc n H Hn Hi. destruct (ex_lookup _) as [i|] eqn:E; [|congruence].
    apply ex_cases in E; [|assumption|assumption]. destruct E as [[-> ->]|[-> [->|[->| ->]]]]; cbn; auto.
  - intros loc n m i H (d & E & Hi) Hl.
    destruct (L loc H) as [[-> E']|[-> E']]; rewrite E in *; try discriminate.
    + intros E'. destruct d; [destruct Hi|discriminate].
    + injection E' as ->. cbn in Hi. repeat destruct Hi as [Hi|Hi]; try contradiction; injection Hi as <- <-;
        cbn in Hl; injection Hl as <-; reflexivity.
Qed.

(** Listing a folder yields ".", ".." and exactly the names that can be inspected in it, except for the overlay's own database;
    whatever has been deleted through the overlay. *)
Theorem C82_listing :
  forall (U : Type) (lookup : str -> option (finfo U)) list_mode mount_point_of overlay mount_point_mode loc l,
    coherent lookup list_mode -> Forall proper_name loc ->
    front_readdir lookup list_mode mount_point_of overlay mount_point_mode (written loc) = Ok l ->
    exists a b rest, l = ($".", a) :: ($"..", b) :: rest /\
      forall n, In n (map fst rest) <->
        proper_name n /\ (exists s, front_getattr lookup mount_point_of overlay (written (loc ++ [n])) = Ok s)
        /\ (overlay <> None -> ~ overlay_database n).
Proof.
  intros U lookup list_mode mp overlay mm loc l Hc Hl H. destruct Hc as [Hc1 Hc2 Hc3].
  destruct (readdir_shape _ _ _ _ _ _ _ H) as (a & b & rest & -> & Hn & _). exists a, b, rest. split; [reflexivity|].
  intros n. rewrite Hn. split.
  - intros [Hi Hk]. destruct (Hc1 loc n Hl Hi) as [Pn Ln]. split; [assumption|]. split.
    + apply getattr_ok; [assumption|assumption|]. split; [assumption|]. intros o E D. apply (Hk o E). apply list_deleted_iff; auto.
    + intros No Hd. destruct overlay as [o|]; [|congruence]. apply (Hk o eq_refl). apply list_deleted_iff; [assumption|].
      right. now apply database_iff.
  - intros (Pn & Hg & Hd). apply getattr_ok in Hg as [Hlk Hdel]; [|assumption|assumption]. split; [now apply Hc2|].
    intros o E Hi. apply list_deleted_iff in Hi; [|assumption]. destruct Hi as [D|D]; [now apply (Hdel o E)|].
    apply Hd; [congruence|]. now apply database_iff.
Qed.
Print Assumptions C82_listing.

Example C82_listing_ex :
  front_readdir ex_lookup ex_list (fun _ => $"/")
    (Some (mkFO [mkRow $"/d" $"l" None None None None true; mkRow $"" $"f" None None None None true] [])) 16877 $"/d"
  = Ok [($".", Some 16832); ($"..", Some 16877); ($"f", Some 32768)].
Proof. reflexivity. Qed.

(** Without an overlay the file types listed are those of the files. *)
Theorem C82_types :
  forall (U : Type) (lookup : str -> option (finfo U)) list_mode mount_point_of mount_point_mode loc a b rest n m s,
    coherent lookup list_mode -> Forall proper_name loc ->
    front_readdir lookup list_mode mount_point_of None mount_point_mode (written loc) = Ok (a :: b :: rest) ->
    In (n, Some m) rest ->
    front_getattr lookup mount_point_of None (written (loc ++ [n])) = Ok s ->
    Z.land m 61440 = Z.land (st_mode s) 61440.
Proof.
  intros U lookup list_mode mp mm loc a b rest n m s [_ _ Hc] Hl H Hi Hg.
  destruct (readdir_shape _ _ _ _ _ _ _ H) as (a' & b' & rest' & E & _ & Hm). injection E as -> -> ->.
  specialize (Hm n m Hi). unfold front_getattr, front_lookup in Hg. destruct (lookup _) as [i|] eqn:El; [|discriminate].
  injection Hg as <-. cbn [st_mode]. eapply Hc; eassumption.
Qed.
Print Assumptions C82_types.

(** The attributes shown are those of the mount source; the number of 512 byte blocks is the least that holds the file. *)
Theorem C82_stat :
  forall (U : Type) (lookup : str -> option (finfo U)) mount_point_of path s,
    front_getattr lookup mount_point_of None path = Ok s <->
    exists i, lookup path = Some i /\
      st_size s = fi_size i /\ st_mode s = fi_mode i /\ st_uid s = fi_uid i /\ st_gid s = fi_gid i /\
      st_mtime s = fi_mtime i * 1000000000 /\ st_nlink s = 1 /\ st_blksize s = 262144 /\
      512 * (st_blocks s - 1) < fi_size i <= 512 * st_blocks s.
Proof.
  intros U lookup mp path s. unfold front_getattr, front_lookup.
  assert (B : forall x, 512 * (ceil_div x 512 - 1) < x <= 512 * ceil_div x 512).
  { intros x. unfold ceil_div. pose proof (Z.div_mod (- x) 512). pose proof (Z.mod_pos_bound (- x) 512). lia. }
  destruct (lookup path) as [i|]; split.
  - intros [= <-]. exists i. cbn. repeat split; try reflexivity; apply B.
  - intros (i' & [= <-] & H1 & H2 & H3 & H4 & H5 & H6 & H7 & H8). destruct s as [s1 s2 s3 s4 s5 s6 s7 s8]. cbn [st_size st_mode st_uid st_gid st_mtime st_nlink st_blksize st_blocks] in *. subst. do 2 f_equal.
    pose proof (B (fi_size i)). lia.
  - discriminate.
  - intros (i' & H & _). discriminate.
Qed.
Print Assumptions C82_stat.

Example C82_stat_ex : front_getattr ex_lookup (fun _ => $"/") None $"/d/f"
  = Ok (mkStat 1000 33188 3 4 9000000000 1 262144 2).
Proof. reflexivity. Qed.

(** Listing an existing folder succeeds, and "." and ".." carry the modes of the folder and of its parent, if the mount source takes
    the empty path for the root. *)
Theorem C82_dots_partial :
  forall (U : Type) (lookup : str -> option (finfo U)) list_mode mount_point_of mount_point_mode loc d i,
    lookup [] = lookup $"/" -> Forall proper_name loc ->
    list_mode (written loc) = ModeDict d -> lookup (written loc) = Some i ->
    (loc <> [] -> lookup (written (removelast loc)) <> None) ->
    exists up rest,
      front_readdir lookup list_mode mount_point_of None mount_point_mode (written loc)
        = Ok (($".", Some (fi_mode i)) :: ($"..", Some up) :: rest) /\
      (loc = [] -> up = mount_point_mode) /\
      (loc <> [] -> exists j, lookup (written (removelast loc)) = Some j /\ up = fi_mode j).
Proof.
  intros U lookup list_mode mp mm loc d i H0 Hl Hd Hi Hp. unfold front_readdir. rewrite Hd.
  unfold front_getattr at 1. unfold front_lookup at 1. rewrite Hi.
  destruct loc as [|x r] eqn:El.
  - change (str_eqb (written []) $"/") with true. cbn [st_mode]. do 2 eexists. split; [reflexivity|]. split; [reflexivity|congruence].
  - rewrite <- El in *. assert (Hne : loc <> []) by (subst; discriminate).
    destruct (str_eqb_spec (written loc) $"/") as [E|_]; [apply written_root in E; [congruence|assumption]|].
    specialize (Hp Hne). destruct (exists_last Hne) as (l & n & E). subst loc. rewrite E in *. rewrite removelast_last in *.
    apply Forall_app in Hl as [Hl Hn]. apply Forall_inv in Hn.
    unfold rsplit_head. rewrite rsplit_written by assumption.
    assert (Ef : lookup (folder_of l) = lookup (written l)) by (destruct l; [exact H0|reflexivity]).
    unfold front_getattr, front_lookup. rewrite Ef. destruct (lookup (written l)) as [j|]; [|congruence].
    do 2 eexists. split; [reflexivity|]. split; [intros E'; destruct l; discriminate|]. intros _. exists j. split; reflexivity.
Qed.
Print Assumptions C82_dots_partial.

(** Reading a folder that does not exist is not an error: an empty folder is shown. *)
Theorem C82_missing_refuted :
  ~ (forall (U : Type) (lookup : str -> option (finfo U)) list_mode mount_point_of mount_point_mode loc,
       coherent lookup list_mode -> Forall proper_name loc -> lookup (written loc) = None ->
       exists e, front_readdir lookup list_mode mount_point_of None mount_point_mode (written loc) = Err e).
Proof.
  intros H. destruct (H nat ex_lookup ex_list (fun _ => $"/") 0 [$"x"]) as [e He].
  - apply ex_coherent.
  - constructor; [|constructor]. repeat split; try discriminate. cbn. intuition discriminate.
  - reflexivity.
  - discriminate He.
Qed.
Print Assumptions C82_missing_refuted.

(** With an overlay, files of an archive that are called like the overlay's database can be inspected but are never listed, in any folder. *)
Theorem C82_listing_refuted :
  ~ (forall (U : Type) (lookup : str -> option (finfo U)) list_mode mount_point_of overlay mount_point_mode loc a b rest n s,
       coherent lookup list_mode -> Forall proper_name loc -> proper_name n -> loc <> [] ->
       front_readdir lookup list_mode mount_point_of overlay mount_point_mode (written loc) = Ok (a :: b :: rest) ->
       front_getattr lookup mount_point_of overlay (written (loc ++ [n])) = Ok s -> In n (map fst rest)).
Proof.
  intros H.
  assert (P : In ex_db (map fst [($"f", Some 32768); ($"l", Some 40960)])).
  { eapply (H nat ex_lookup ex_list (fun _ => $"/") (Some (mkFO [] [])) 0 [$"d"]).
    - apply ex_coherent.
    - constructor; [|constructor]. repeat split; try discriminate. cbn. intuition discriminate.
    - repeat split; try discriminate. cbn. intuition discriminate.
    - discriminate.
    - reflexivity.
    - reflexivity. }
  cbn in P. destruct P as [P|[P|[]]]; discriminate.
Qed.
Print Assumptions C82_listing_refuted.

(** Links and extended attributes are those of the source; a missing attribute is reported as such. *)
Theorem C82_links_and_attributes :
  forall (U : Type) (lookup : str -> option (finfo U)) mount_point_of xlist xget path,
    match lookup path with
    | None => front_readlink lookup mount_point_of None path = Err (OSErr 2) /\
              front_listxattr lookup mount_point_of xlist None path = Err (OSErr 2) /\
              (forall name, front_getxattr lookup mount_point_of xget None path name 0 = Err (OSErr 2))
    | Some i => front_readlink lookup mount_point_of None path = Ok (fi_linkname i) /\
                front_listxattr lookup mount_point_of xlist None path = Ok (xlist i) /\
                (forall name, front_getxattr lookup mount_point_of xget None path name 0 =
                              match xget i name with Some v => Ok v | None => Err (OSErr 61) end)
    end.
Proof.
  intros. unfold front_readlink, front_listxattr, front_getxattr, front_lookup. destruct (lookup path); repeat split; reflexivity.
Qed.
Print Assumptions C82_links_and_attributes.

(** A part of an attribute cannot be asked for. *)
Theorem C82_attribute_position :
  forall (U : Type) (lookup : str -> option (finfo U)) mount_point_of xget overlay path name position, position <> 0 ->
    front_getxattr lookup mount_point_of xget overlay path name position = Err (OSErr 95).
Proof. intros U lookup mp xget overlay path name position N. unfold front_getxattr. destruct (Z.eqb_spec position 0); [contradiction|reflexivity]. Qed.
Print Assumptions C82_attribute_position.

(** ** C83 *)

(** After chmod, the file shows the new mode and is otherwise unchanged, and so is every other path, for entries that belong
    to a source mounted at the root of the mount. *)
Theorem C83_chmod_partial :
  forall (U : Type) (lookup : str -> option (finfo U)) mount_point_of o loc n i mode,
    Forall proper_name loc -> proper_name n ->
    lookup (written (loc ++ [n])) = Some i -> mount_point_of i = $"/" ->
    let path := written (loc ++ [n]) in
    let o' := chmod_row i o path mode in
    (forall s, front_getattr lookup mount_point_of (Some o) path = Ok s ->
       front_getattr lookup mount_point_of (Some o') path
         = Ok (mkStat (st_size s) mode (st_uid s) (st_gid s) (st_mtime s) (st_nlink s) (st_blksize s) (st_blocks s))) /\
    (forall loc' n' j, Forall proper_name loc' -> proper_name n' -> loc' ++ [n'] <> loc ++ [n] ->
       lookup (written (loc' ++ [n'])) = Some j -> mount_point_of j = $"/" ->
       front_getattr lookup mount_point_of (Some o') (written (loc' ++ [n'])) =
       front_getattr lookup mount_point_of (Some o) (written (loc' ++ [n']))).
Proof.
  intros U lookup mp o loc n i mode Hl Hn Hi Hm path o'.
  assert (SK : forall loc0 n0 i0, mp i0 = $"/" -> skipn (length (mp i0)) (written (loc0 ++ [n0])) = join $"/" (loc0 ++ [n0])).
  { intros loc0 n0 i0 ->. reflexivity. }
  assert (R : fo_rows o' = if existsb (row_at (folder_of loc) n) (fo_rows o)
      then map (fun r => if row_at (folder_of loc) n r
                           then Front_Model.mkRow (fr_path r) (fr_name r) (fr_mtime r) (Some mode) (fr_uid r) (fr_gid r) (fr_deleted r)
                           else r) (fo_rows o)
      else fo_rows o ++ [Front_Model.mkRow (folder_of loc) n (Some (fi_mtime i)) (Some mode) (Some (fi_uid i)) (Some (fi_gid i)) false]).
  { subst o' path. unfold chmod_row. rewrite split_path_abs by assumption. destruct (existsb _ _); reflexivity. }
  set (upd := fun r => if row_at (folder_of loc) n r then _ else r) in R.
  assert (RA : forall f m r, row_at f m (upd r) = row_at f m r).
  { intros f m r. subst upd. cbn beta. destruct (row_at (folder_of loc) n r); reflexivity. }
  assert (DA : forall r, fr_deleted (upd r) = fr_deleted r).
  { intros r. subst upd. cbn beta. destruct (row_at (folder_of loc) n r); reflexivity. }
  assert (D : forall f m, existsb (fun r => row_at f m r && fr_deleted r) (fo_rows o') =
                          existsb (fun r => row_at f m r && fr_deleted r) (fo_rows o)).
  { intros f m. rewrite R. destruct (existsb (row_at (folder_of loc) n) (fo_rows o)).
    - clear R. induction (fo_rows o) as [|r rs IH]; [reflexivity|]. cbn [map existsb]. now rewrite RA, DA, IH.
    - rewrite existsb_app. cbn [existsb fr_deleted]. rewrite andb_false_r. now rewrite !orb_false_r. }
  split.
  - intros s. unfold front_getattr, front_lookup. subst path. rewrite Hi.
    unfold is_deleted. rewrite split_path_abs by assumption. rewrite D.
    
    destruct (existsb (fun r => row_at (folder_of loc) n r && fr_deleted r) (fo_rows o)) eqn:Ed; [intros X; discriminate X|]. rewrite SK by assumption. unfold update_file_info.
    rewrite split_path_rel by assumption. rewrite R.
    destruct (existsb (row_at (folder_of loc) n) (fo_rows o)) eqn:Ex.
    + assert (F : exists r, find (row_at (folder_of loc) n) (fo_rows o) = Some r /\
                  find (row_at (folder_of loc) n) (map upd (fo_rows o)) = Some (upd r) /\ row_at (folder_of loc) n r = true).
      { clear - Ex RA. induction (fo_rows o) as [|r rs IH]; [discriminate|]. cbn [existsb find map] in *. rewrite RA.
        destruct (row_at (folder_of loc) n r) eqn:Er.
        - exists r. rewrite ?Er. repeat split; auto.
        - apply IH. assumption. }
      destruct F as (r & -> & -> & Er). intros [= <-]. subst upd. cbn beta. rewrite Er. cbn. reflexivity.
    + assert (F : find (row_at (folder_of loc) n) (fo_rows o) = None).
      { clear - Ex. induction (fo_rows o) as [|r rs IH]; [reflexivity|]. cbn [existsb find] in *.
        apply orb_false_iff in Ex as [E1 E2]. rewrite E1. auto. }
      rewrite F. intros [= <-].
      assert (F2 : forall l x, find (row_at (folder_of loc) n) l = None -> row_at (folder_of loc) n x = true ->
                   find (row_at (folder_of loc) n) (l ++ [x]) = Some x).
      { intros l x. induction l as [|r rs IH]; cbn [app find]; [intros _ ->; reflexivity|].
        destruct (row_at (folder_of loc) n r); [discriminate|]. apply IH. }
      rewrite F2; [|assumption|apply row_at_iff; split; reflexivity]. reflexivity.
  - intros loc' n' j Hl' Hn' Hd Hj Hmj. unfold front_getattr, front_lookup. rewrite Hj.
    unfold is_deleted. rewrite split_path_abs by assumption. rewrite D.
    
    destruct (existsb (fun r => row_at (folder_of loc') n' r && fr_deleted r) (fo_rows o)) eqn:Ed; [reflexivity|]. rewrite SK by assumption. unfold update_file_info.
    rewrite split_path_rel by assumption. rewrite R.
    assert (Hx : forall r, row_at (folder_of loc') n' r = true -> row_at (folder_of loc) n r = false).
    { intros r Hr. apply row_at_iff in Hr as [A B]. destruct (row_at (folder_of loc) n r) eqn:E; [|reflexivity]. exfalso.
      apply row_at_iff in E as [A' B']. apply Hd. rewrite A in A'. apply folder_of_inj in A'; [|assumption|assumption]. congruence. }
    destruct (existsb (row_at (folder_of loc) n) (fo_rows o)) eqn:Ex.
    + assert (F : find (row_at (folder_of loc') n') (map upd (fo_rows o)) = find (row_at (folder_of loc') n') (fo_rows o)).
      { clear - RA Hx. induction (fo_rows o) as [|r rs IH]; [reflexivity|]. cbn [find map]. rewrite RA.
        destruct (row_at (folder_of loc') n' r) eqn:Er; [|assumption]. subst upd. cbn beta. now rewrite (Hx r Er). }
      now rewrite F.
    + match goal with |- context [_ ++ [?x]] => set (new := x) end.
      assert (F : find (row_at (folder_of loc') n') (fo_rows o ++ [new]) = find (row_at (folder_of loc') n') (fo_rows o)).
      { assert (N : row_at (folder_of loc') n' new = false).
        { destruct (row_at (folder_of loc') n' new) eqn:E; [|reflexivity]. pose proof (Hx new E) as Hn2.
          assert (T : row_at (folder_of loc) n new = true) by (apply row_at_iff; split; reflexivity). congruence. }
        clear - N. induction (fo_rows o) as [|r rs IH]; cbn [app find]; [now rewrite N|].
        destruct (row_at (folder_of loc') n' r); [reflexivity|assumption]. }
      now rewrite F.
Qed.
Print Assumptions C83_chmod_partial.

Example C83_chmod_ex :
  front_getattr ex_lookup (fun _ => $"/") (Some (chmod_row (@mkInfo nat 1000 9 (32768 + 420) $"" 3 4 []) (mkFO [] []) $"/d/f" 33216)) $"/d/f"
  = Ok (mkStat 1000 33216 3 4 9000000000 1 262144 2).
Proof. reflexivity. Qed.

(** Changing the mode of the root of the mount has no effect. *)
Theorem C83_root_refuted :
  ~ (forall (U : Type) (lookup : str -> option (finfo U)) mount_point_of o i mode s,
       lookup $"/" = Some i -> mount_point_of i = $"/" ->
       front_getattr lookup mount_point_of (Some (chmod_row i o $"/" mode)) $"/" = Ok s -> st_mode s = mode).
Proof.
  intros H. specialize (H nat ex_lookup (fun _ => $"/") (mkFO [] []) (mkInfo 0 7 (16384 + 493) $"" 0 0 []) 16832).
  specialize (H _ eq_refl eq_refl eq_refl). discriminate.
Qed.
Print Assumptions C83_root_refuted.

(** Neither has it for files in a nested archive; instead, a change to a file of the outer archive shows on the file of the
    nested archive that has the same path inside it. *)
Definition ex_nested (p : str) : option (finfo str) :=
  if str_eqb p $"/f" then Some (mkInfo 1 1 33188 $"" 0 0 [$"/"])
  else if str_eqb p $"/a.tar/f" then Some (mkInfo 2 2 33188 $"" 0 0 [$"/a.tar/"])
  else None.
Definition ex_mount (i : finfo str) : str := match fi_userdata i with m :: _ => m | [] => $"/" end.

Theorem C83_nested_refuted :
  ~ (forall (U : Type) (lookup : str -> option (finfo U)) mount_point_of o i path mode s,
       lookup path = Some i -> path <> $"/" ->
       front_getattr lookup mount_point_of (Some (chmod_row i o path mode)) path = Ok s -> st_mode s = mode) /\
  ~ (forall (U : Type) (lookup : str -> option (finfo U)) mount_point_of o i loc mode other,
       Forall proper_name loc -> Forall proper_name other -> other <> loc -> lookup (written loc) = Some i ->
       front_getattr lookup mount_point_of (Some (chmod_row i o (written loc) mode)) (written other) =
       front_getattr lookup mount_point_of (Some o) (written other)).
Proof.
  assert (P : proper_name $"a.tar" /\ proper_name $"f").
  { unfold proper_name. repeat split; try discriminate; cbn; intuition discriminate. }
  split; intros H.
  - specialize (H str ex_nested ex_mount (mkFO [] []) (mkInfo 2 2 33188 $"" 0 0 [$"/a.tar/"]) $"/a.tar/f" 33216).
    specialize (H _ eq_refl ltac:(discriminate) eq_refl). discriminate.
  - specialize (H str ex_nested ex_mount (mkFO [] []) (mkInfo 1 1 33188 $"" 0 0 [$"/"]) [$"f"] 33216 [$"a.tar"; $"f"]).
    specialize (H ltac:(repeat constructor; apply P) ltac:(repeat constructor; apply P) ltac:(discriminate) eq_refl). discriminate H.
Qed.
Print Assumptions C83_nested_refuted.

(** ** C84 *)

(** Both block sizes reported are the larger one of the source's and 256 KiB; all other statistics are the source's. *)
Theorem C84_block_size :
  forall source overlay key,
    value_of (front_statfs source overlay) key =
    if list_eq_dec ascii_dec key $"f_bsize" then Some (Z.max (match value_of source key with Some v => v | None => 0 end) 262144)
    else if list_eq_dec ascii_dec key $"f_frsize" then Some (Z.max (match value_of source key with Some v => v | None => 0 end) 262144)
    else value_of source key.
Proof.
  intros source overlay key. unfold front_statfs. cbn [fold_left]. rewrite at_least_get.
  destruct (list_eq_dec ascii_dec key $"f_bsize") as [->|N1].
  - change (str_eqb $"f_bsize" $"f_frsize") with false. cbn iota. rewrite at_least_get. now rewrite str_eqb_refl.
  - destruct (list_eq_dec ascii_dec key $"f_frsize") as [->|N2].
    + rewrite str_eqb_refl. rewrite at_least_get. reflexivity.
    + rewrite (proj2 (str_eqb_neq key $"f_frsize") N2). rewrite at_least_get.
      now rewrite (proj2 (str_eqb_neq key $"f_bsize") N1).
Qed.
Print Assumptions C84_block_size.

Example C84_block_size_ex :
  value_of (front_statfs [($"f_bsize", 1048576); ($"f_namemax", 255)] None) $"f_bsize" = Some 1048576 /\
  value_of (front_statfs [($"f_bsize", 1048576); ($"f_namemax", 255)] None) $"f_frsize" = Some 262144.
Proof. split; reflexivity. Qed.

(** The free space of the overlay folder, where everything written goes, is not reported. *)
Theorem C84_free_space_refuted :
  ~ (forall source o free, value_of (fo_statfs o) $"f_bfree" = Some free ->
       value_of (front_statfs source (Some o)) $"f_bfree" = Some free).
Proof.
  intros H. specialize (H [($"f_bsize", 4096); ($"f_bfree", 0)] (mkFO [] [($"f_bfree", 1000)]) 1000 eq_refl). discriminate.
Qed.
Print Assumptions C84_free_space_refuted.

(** Statistics of several sources are merged: the largest block sizes, the smallest maximal name length, else the first value. *)
Theorem C84_merge :
  forall sources key, Forall (fun d => NoDup (map fst d)) sources ->
    match values_of sources key with
    | [] => value_of (merge_statfs sources) key = None
    | v :: vs =>
        exists m, value_of (merge_statfs sources) key = Some m /\
        ((key = $"f_bsize" \/ key = $"f_frsize") -> m = fold_right Z.max v vs) /\
        (key = $"f_namemax" -> m = fold_right Z.min v vs) /\
        (key <> $"f_bsize" -> key <> $"f_frsize" -> key <> $"f_namemax" -> m = v)
    end.
Proof.
  intros sources key H. pose proof (merge_get sources key H) as G. destruct (values_of sources key) as [|v vs]; [assumption|].
  eexists. split; [exact G|]. split; [|split].
  - intros E. rewrite (fold_left_ext _ Z.max).
    + rewrite <- fold_symmetric; [reflexivity|intros; apply Z.max_assoc|intros; apply Z.max_comm].
    + intros a b. unfold merged. destruct E as [-> | ->]; reflexivity.
  - intros ->. rewrite (fold_left_ext _ Z.min).
    + rewrite <- fold_symmetric; [reflexivity|intros; apply Z.min_assoc|intros; apply Z.min_comm].
    + reflexivity.
  - intros N1 N2 N3. rewrite (fold_left_ext _ (fun o _ => o)); [apply fold_first|].
    intros a b. unfold merged. rewrite (proj2 (str_eqb_neq _ _) N1), (proj2 (str_eqb_neq _ _) N2), (proj2 (str_eqb_neq _ _) N3).
    reflexivity.
Qed.
Print Assumptions C84_merge.

Example C84_merge_ex :
  let d := [[($"f_bsize", 512); ($"f_namemax", 255); ($"f_flag", 1)]; [($"f_bsize", 4096); ($"f_namemax", 143)]] in
  Forall (fun d => NoDup (map fst d)) d /\
  merge_statfs d = [($"f_bsize", 4096); ($"f_namemax", 143); ($"f_flag", 1)].
Proof.
  cbn zeta. split; [|reflexivity]. constructor; [|constructor; [|constructor]].
  - cbn [map fst]. constructor; [cbn [In]; intros [H|[H|[]]]; discriminate|]. constructor; [cbn [In]; intros [H|[]]; discriminate|].
    constructor; [intros []|constructor].
  - cbn [map fst]. constructor; [cbn [In]; intros [H|[]]; discriminate|]. constructor; [intros []|constructor].
Qed.
