(** Properties C42 and C50: file hashes. *)
From Coq Require Import Ascii String Sorting.Permutation.
From Verif Require Import PyBase PyDict PyStr FileInfo Index_Model Index_Spec Xattr_Model Xattr_Spec Xattr_Proofs Hash_Model Hash_Spec Hash_Proofs.
Local Open Scope Z_scope.

(** ** C42 *)

(** C42, hashes over the whole file: for every content, every way in which the file object splits the data into non-empty pieces,
    every position it stands at and every list of algorithms, the result has exactly the supported ones of the requested algorithms, each with
    the hash of the whole content: for CRC-32 as eight hexadecimal digits and for the algorithms of hashlib the digest after
    one update with the whole content. *)
Theorem C42_hashes :
  forall (S_ : Type) (new_ : str -> option S_) (update_ : S_ -> str -> S_) (hexdigest_ : S_ -> str) (registry : str -> option bool), streaming update_ ->
  forall (cut : nat -> Z -> Z), legal cut ->
  forall (f : file) (algorithms : list str), 0 <= pos f ->
  exists result, compute_hashes cut S_ new_ update_ hexdigest_ registry f algorithms = Ok result /\ NoDup (map fst result) /\
  (forall a, ~ In a algorithms \/ a = [] \/ registry a = None -> forall v, ~ In (a, v) result) /\
  (forall a, In a algorithms -> a <> [] ->
    (registry a = Some true -> (exists v, In (a, v) result) <-> a = $"smplayer") /\
    (registry a = Some false -> a = $"crc32" -> exists v, In (a, v) result /\ length v = 8%nat /\ hex_value v = Some (crc32 (content f) 0)) /\
    (registry a = Some false -> a <> $"crc32" -> forall v, In (a, v) result <-> exists s, new_ a = Some s /\ v = hexdigest_ (update_ s (content f)))).
Proof.
  intros S_ new_ update_ hexdigest_ registry Hst cut Hcut f algs Hp.
  destruct (computed_hashes S_ new_ update_ hexdigest_ registry Hst cut Hcut f algs Hp) as (result & E & N & D & Sm). exists result. split; [exact E|]. split; [exact N|].
  assert (forall a v, In (a, v) result <-> dget str_eqb result a = Some v) as Get.
  { intros a v. split; [now apply NoDup_dget; [exact str_eqb_spec|]|]. intros G. now apply dget_Some_In in G; [|exact str_eqb_spec]. }
  assert (forall a, In a algs -> existsb (str_eqb a) algs = true) as Ex by (intros a I; apply existsb_exists; exists a; split; [exact I|apply str_eqb_refl]).
  assert (forall a, start S_ new_ registry a = if str_eqb a [] then None else match registry a with Some false => if str_eqb a $"crc32" then Some (Crc S_ 0) else option_map (Lib S_) (new_ a) | _ => None end) as Es by reflexivity.
  split.
  - intros a C v I. apply Get in I. destruct (str_eqb_spec a []) as [->|Na].
    + rewrite D in I by (intros (_ & X & _); discriminate). rewrite Es in I. cbn in I. now destruct (existsb _ algs).
    + rewrite D in I.
      * destruct (existsb (str_eqb a) algs) eqn:X; [|discriminate]. apply existsb_exists in X as (y & Iy & Ey). apply str_eqb_eq in Ey. subst y.
        destruct C as [C|[C|C]]; [contradiction|contradiction|]. rewrite Es, C in I. now destruct (str_eqb a []).
      * intros (R & _ & Ia). destruct C as [C|[C|C]]; [contradiction|contradiction|congruence].
  - intros a Ia Na. destruct (str_eqb_spec a []) as [|_]; [contradiction|]. split; [|split].
    + intros R. split.
      * intros [v I]. apply Get in I. destruct (str_eqb_spec a $"smplayer") as [->|Ns]; [reflexivity|]. rewrite D in I by tauto. rewrite (Ex a Ia), Es, R in I. destruct (str_eqb_spec a []); discriminate.
      * intros ->. destruct (Sm Ia R) as (g & _ & G). eexists. apply Get. exact G.
    + intros R ->. pose proof (crc32_range (content f) 0 ltac:(lia)) as V. assert (Z.land (crc32 (content f) 0) 4294967295 = crc32 (content f) 0) as El.
      { change 4294967295 with (Z.ones 32). rewrite Z.land_ones by lia. now apply Z.mod_small. }
      exists (hex 8 (Z.land (crc32 (content f) 0) 4294967295)). rewrite El. destruct (hex_value_hex 8 (crc32 (content f) 0)) as [H1 H2]; [exact V|]. split; [|split; [exact H2|exact H1]].
      apply Get. rewrite D by (intros (_ & X & _); discriminate). rewrite (Ex _ Ia), Es, R. rewrite <- El. reflexivity.
    + intros R Nc v. rewrite Get, D by (intros (X & _ & _); congruence). rewrite (Ex _ Ia), Es, R. destruct (str_eqb_spec a []) as [|_]; [contradiction|]. destruct (str_eqb_spec a $"crc32") as [|_]; [contradiction|].
      destruct (new_ a) as [s|]; cbn; split.
      * intros [= <-]. now exists s.
      * intros (s' & [= ->] & ->). reflexivity.
      * discriminate.
      * intros (s' & [=] & _).
Qed.
Print Assumptions C42_hashes.

(** C42, SMPlayer: if the reads return all the data that was asked for, the value is the 64-bit sum of the file size and the
    words of the first and last 64 KiB, none of them counted twice, as 16 hexadecimal digits. *)
Theorem C42_smplayer :
  forall (S_ : Type) (new_ : str -> option S_) (update_ : S_ -> str -> S_) (hexdigest_ : S_ -> str) (registry : str -> option bool), streaming update_ ->
  forall (cut : nat -> Z -> Z), full cut ->
  forall (f : file) (algorithms : list str), 0 <= pos f -> In $"smplayer" algorithms -> registry $"smplayer" = Some true ->
  exists result v, compute_hashes cut S_ new_ update_ hexdigest_ registry f algorithms = Ok result /\ In ($"smplayer", v) result /\
    length v = 16%nat /\ hex_value v = Some (smplayer_spec (content f)).
Proof.
  intros S_ new_ update_ hexdigest_ registry Hst cut Hcut f algs Hp I R. assert (legal cut) as L by (intros k a Ha; rewrite Hcut; lia).
  destruct (computed_hashes S_ new_ update_ hexdigest_ registry Hst cut L f algs Hp) as (result & E & N & D & Sm). destruct (Sm I R) as (g & Cg & G).
  destruct (smplayer_correct cut g Hcut) as (v & f' & Ev & V & Lv). exists result, v. split; [exact E|]. split; [|split; [exact Lv|now rewrite <- Cg]].
  apply dget_Some_In in G; [|exact str_eqb_spec]. now rewrite Ev in G.
Qed.
Print Assumptions C42_smplayer.

(** The full claim for the SMPlayer hash fails: it asks only once for each of the two parts, so a file object that returns
    fewer bytes than asked for gives a different hash for the same content. *)
Theorem C42_smplayer_refuted :
  exists cut, legal cut /\ exists f, hex_value (fst (smplayer_hash cut f)) <> Some (smplayer_spec (content f)) /\
    fst (smplayer_hash cut f) <> fst (smplayer_hash (fun _ available => available) f).
Proof.
  exists (fun _ _ => 1). split; [intros k a Ha; lia|]. exists (mkFile $"ab" 0 0). split; vm_compute; discriminate.
Qed.
Print Assumptions C42_smplayer_refuted.

(** The hash objects of the examples collect the data. *)
Definition ex_new (a : str) : option str := if str_eqb a $"md5" then Some [] else None.
Definition ex_registry (a : str) : option bool :=
  if str_eqb a $"md5" || str_eqb a $"sha1" || str_eqb a $"crc32" then Some false else if str_eqb a $"smplayer" then Some true else None.
Example C42_example :
  streaming (@app ascii) /\ legal (fun k available => Z.min available (1 + Z.of_nat k)) /\
  compute_hashes (fun k available => Z.min available (1 + Z.of_nat k)) str ex_new (@app ascii) (fun s => s) ex_registry (mkFile $"123456789" 4 0)
    [$"crc32"; $"sha1"; []; $"md5"; $"crc32"; $"foo"] = Ok [($"crc32", $"cbf43926"); ($"md5", $"123456789")].
Proof.
  split; [split; [intros s a b; now rewrite app_assoc|intros s; apply app_nil_r]|]. split; [intros k a Ha; lia|]. vm_compute. reflexivity.
Qed.
Example C42_smplayer_example :
  full (fun _ available => available) /\
  compute_hashes (fun _ available => available) str ex_new (@app ascii) (fun s => s) ex_registry (mkFile $"abcdefghi" 4 0) [$"smplayer"] = Ok [($"smplayer", $"68676665646362d3")].
Proof. split; [intros k a; reflexivity|]. vm_compute. reflexivity. Qed.

(** ** C50 *)

(** C50: let the archive itself bring none of the attributes that are computed. After any number of interrupted runs of the
    hashing, in each of which the files came in any order and any of them could fail, followed by a run that is complete, every
    regular file that has its own header number and that can be read has exactly the computed hashes as attributes, with
    their values. *)
Theorem C50_resumed :
  forall (hashes : list str) (computed : row -> option (list (str * str))) (files : list row) (h0 h : list (Z * str * str)),
  (forall oh k v a, In (oh, k, v) h0 -> In a hashes -> k <> $"user.hash." ++ a) ->
  (forall r c, In r files -> computed r = Some c -> NoDup (map fst c) /\ forall a v, In (a, v) c -> In a hashes) ->
  interrupted (fun before written => exists shuffle computed', any_order shuffle /\ (forall r c, computed' r = Some c -> computed r = Some c) /\
    written = concat (hash_calls hashes computed' shuffle files (setxattrs no_xattrs before))) h0 h ->
  forall shuffle shuffle', any_order shuffle -> (forall l, Permutation (shuffle' l) l) ->
  let x := store_hashes hashes computed shuffle files (setxattrs no_xattrs h) in
  forall r c, In r files -> eligible r -> own_number files r -> computed r = Some c ->
  forall a v, In a hashes -> get_xattr shuffle' x (row_to_file_info r) ($"user.hash." ++ a) = Some v <-> In (a, v) c.
Proof.
  intros hashes computed files h0 h H0 Hc Hi shuffle shuffle' Hs Hs' x r c Ir El Own Ec a v Ia. unfold x. rewrite store_history.
  rewrite (get_correct shuffle' _ (row_to_file_info r) (r_offsetheader r)); [|exact Hs'|].
  2: { exists [], (mkTD (r_offset r) (r_offsetheader r) (r_istar r) (r_issparse r) (r_isgenerated r) (r_recursiondepth r)). cbn. split; [reflexivity|]. split; [reflexivity|]. apply El. }
  change ($"user.hash." ++ a) with (xattr_key a). rewrite (stored_hash hashes computed files h0 shuffle h r c a); try assumption.
  - destruct (Hc r c Ir Ec) as [N _]. split; [intros G; now apply dget_Some_In in G; [|exact str_eqb_spec]|now apply NoDup_dget; [exact str_eqb_spec|]].
  - intros r' c' Ir' Ec'. destruct (Hc r' c' Ir' Ec') as [N Inc]. split; [exact N|]. intros k Ik. apply in_map_iff in Ik as ([k' w] & <- & Ik). now apply (Inc k' w).
Qed.
Print Assumptions C50_resumed.

(** The other attributes of the archive are kept. *)
Theorem C50_others :
  forall (hashes : list str) (computed : row -> option (list (str * str))) (files : list row) (h : list (Z * str * str)),
  (forall r c, In r files -> computed r = Some c -> forall a v, In (a, v) c -> In a hashes) ->
  forall shuffle shuffle', any_order shuffle -> (forall l, Permutation (shuffle' l) l) ->
  forall info oh, entry_at info oh -> forall k, (forall a, In a hashes -> k <> $"user.hash." ++ a) ->
  get_xattr shuffle' (store_hashes hashes computed shuffle files (setxattrs no_xattrs h)) info k = last_value h oh k.
Proof.
  intros hashes computed files h Hc shuffle shuffle' Hs Hs' info oh He k Nk. rewrite store_history, (get_correct shuffle' _ info oh) by assumption.
  assert (forall v, ~ In (oh, k, v) (run hashes computed shuffle files h)) as No.
  { intros v I. destruct (run_from hashes computed files h (run hashes computed shuffle files h) (oh, k, v)) as (r & c & a & w & Ir & El & Ec & Ia & E); [exists shuffle, computed; auto|exact I|].
    injection E as _ Ek _. exact (Nk a (Hc r c Ir Ec a w Ia) Ek). }
  rewrite last_value_app. destruct (last_value (run hashes computed shuffle files h) oh k) as [v|] eqn:L; [|reflexivity]. exfalso. exact (No v (last_value_in _ _ _ _ L)).
Qed.
Print Assumptions C50_others.

(** After a complete run in which no file failed, a further run writes nothing. *)
Theorem C50_once :
  forall (hashes : list str) (computed computed' : row -> option (list (str * str))) (files : list row) (h : list (Z * str * str)),
  NoDup hashes -> (forall r, In r files -> eligible r -> exists c, computed r = Some c /\ forall a, In a hashes -> exists v, In (a, v) c) ->
  forall shuffle shuffle', any_order shuffle -> any_order shuffle' ->
  hash_calls hashes computed' shuffle' files (store_hashes hashes computed shuffle files (setxattrs no_xattrs h)) = [].
Proof.
  intros hashes computed computed' files h N Hc shuffle shuffle' Hs Hs'. rewrite store_history. apply nothing_pending; [exact Hs'|]. intros r Ir El. apply (count_all hashes computed); [exact N|].
  apply run_complete; [exact Hs|exact Ir|exact El|]. destruct (Hc r Ir El) as (c & Ec & H). exists c. split; [exact Ec|]. intros a Ia. destruct (H a Ia) as [v I]. apply in_map_iff. now exists (a, v).
Qed.
Print Assumptions C50_once.

Definition ex_row (name : str) (oh : Z) : row := mkRow [] name oh (oh + 512) 3 0 33188 48 [] 0 0 false false false 0.
Definition ex_files : list row := [ex_row $"a" 0; ex_row $"b" 1024; mkRow [] $"d" 2048 0 0 0 16877 53 [] 0 0 false false false 0].
Definition ex_computed (r : row) : option (list (str * str)) := Some [($"md5", r_name r ++ $"1"); ($"sha1", r_name r ++ $"2")].
(** Here the first run was interrupted after three of the four attributes. *)
Example C50_example :
  let hashes := [$"md5"; $"sha1"] in let h := [(1024, $"user.x", $"y"); (0, $"user.hash.md5", $"a1"); (0, $"user.hash.sha1", $"a2"); (1024, $"user.hash.md5", $"b1")] in
  interrupted (fun before written => exists shuffle computed', any_order shuffle /\ (forall r c, computed' r = Some c -> ex_computed r = Some c) /\
    written = concat (hash_calls hashes computed' shuffle ex_files (setxattrs no_xattrs before))) [(1024, $"user.x", $"y")] h /\
  hash_calls hashes ex_computed (fun l => l) ex_files (setxattrs no_xattrs h) = [[(1024, $"user.hash.md5", $"b1"); (1024, $"user.hash.sha1", $"b2")]] /\
  eligible (ex_row $"b" 1024) /\ own_number ex_files (ex_row $"b" 1024) /\
  get_xattr (fun l => l) (store_hashes hashes ex_computed (fun l => l) ex_files (setxattrs no_xattrs h)) (row_to_file_info (ex_row $"b" 1024)) $"user.hash.sha1" = Some $"b2".
Proof.
  cbn zeta. split; [|split; [vm_compute; reflexivity|split; [split; reflexivity|split; [|vm_compute; reflexivity]]]].
  - apply (run_cut _ _ [(1024, $"user.x", $"y")] [(0, $"user.hash.md5", $"a1"); (0, $"user.hash.sha1", $"a2"); (1024, $"user.hash.md5", $"b1")] [(1024, $"user.hash.sha1", $"b2")]); [apply not_started|].
    exists (fun l => l), ex_computed. split; [intros l; apply Permutation_refl|]. split; [auto|]. vm_compute. reflexivity.
  - intros r' [<-|[<-|[<-|[]]]] E1 E2; [discriminate|reflexivity|discriminate].
Qed.

(** The condition on the header numbers is needed. All the rows of an ASAR archive have the number 0, and there a file gets
    the hash of another one. *)
Theorem C50_shared_refuted :
  exists hashes computed files r c a v, (forall r, exists c, computed r = Some c /\ map fst c = hashes) /\
    In r files /\ eligible r /\ computed r = Some c /\ In a hashes /\ ~ In (a, v) c /\
    get_xattr (fun l => l) (store_hashes hashes computed (fun l => l) files no_xattrs) (row_to_file_info r) ($"user.hash." ++ a) = Some v.
Proof.
  exists [$"md5"], (fun r => Some [($"md5", r_name r)]), [ex_row $"a" 0; ex_row $"b" 0], (ex_row $"a" 0), [($"md5", $"a")], $"md5", $"b". split; [intros r; eexists; split; reflexivity|].
  split; [now left|]. split; [split; reflexivity|]. split; [reflexivity|]. split; [now left|]. split; [|vm_compute; reflexivity]. intros [[=]|[]].
Qed.
Print Assumptions C50_shared_refuted.

(** So is the condition on the attributes of the archive itself: a file for which the archive brings its own hash attributes
    is not hashed, and the value in the archive is shown although it is wrong. *)
Theorem C50_own_attributes_refuted :
  exists hashes computed files h r c a v, (forall r, exists c, computed r = Some c /\ map fst c = hashes) /\
    In r files /\ eligible r /\ own_number files r /\ computed r = Some c /\ In a hashes /\ ~ In (a, v) c /\
    get_xattr (fun l => l) (store_hashes hashes computed (fun l => l) files (setxattrs no_xattrs h)) (row_to_file_info r) ($"user.hash." ++ a) = Some v.
Proof.
  exists [$"md5"], (fun r => Some [($"md5", r_name r)]), [ex_row $"a" 0], [(0, $"user.hash.md5", $"x")], (ex_row $"a" 0), [($"md5", $"a")], $"md5", $"x". split; [intros r; eexists; split; reflexivity|].
  split; [now left|]. split; [split; reflexivity|]. split; [intros r' [<-|[]] _ _; reflexivity|]. split; [reflexivity|]. split; [now left|]. split; [|vm_compute; reflexivity]. intros [[=]|[]].
Qed.
Print Assumptions C50_own_attributes_refuted.
