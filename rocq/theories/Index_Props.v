(** Properties C09 and C10: version numbers and listings of an index. *)
From Coq Require Import Ascii String Sorting.Sorted Sorting.Permutation.
From Verif Require Import PyBase PyDict PyStr Path_Model Path_Spec Path_Proofs FileInfo Index_Model Index_Spec Index_Proofs.
Local Open Scope Z_scope.

(** C09: version numbering.  [occ] are the occurrences of the path, oldest first. *)
Theorem C09_version_numbers :
  forall (now uid gid : Z) (shuffle : list row -> list row), any_order shuffle ->
  forall (files : list row) (path : str), simple_names files -> starts_with $"../" path = false -> denotes path <> [] ->
  forall occ : list row, occurrences files path occ ->
  let n := length occ in
  let look := lookup now uid gid shuffle files path in
  versions now uid gid shuffle files path = n /\
  (forall k, (1 <= k <= n)%nat ->
     look (Z.of_nat k) = option_map row_to_file_info (nth_error occ (k - 1)) /\
     look (Z.of_nat k) <> None /\
     look (Z.of_nat k) = look (Z.of_nat k - Z.of_nat n)) /\
  (forall j, (j < n)%nat ->
     look (- Z.of_nat j) = option_map row_to_file_info (nth_error (rev occ) j) /\ look (- Z.of_nat j) <> None) /\
  (forall v : Z, v <= - Z.of_nat n \/ Z.of_nat n < v -> look v = None).
Proof.
  intros now uid gid shuffle Hsh files path Hs Hp Hr occ Ho n look. split; [apply versions_spec; assumption|].
  apply version_numbers; assumption.
Qed.
Print Assumptions C09_version_numbers.

(** Every table has occurrences because of its primary key. *)
Theorem C09_occurrences_exist :
  forall (files : list row) (path : str), unique_rows files -> exists occ, occurrences files path occ.
Proof. intros files path H. eexists. now apply occurrences_exist. Qed.
Print Assumptions C09_occurrences_exist.

(** The root folder has one version and is found under every version number. *)
Theorem C09_root_version :
  forall now uid gid shuffle files path v, starts_with $"../" path = false -> denotes path = [] ->
  lookup now uid gid shuffle files path v = Some (root now uid gid) /\ versions now uid gid shuffle files path = 1%nat.
Proof. exact root_versions. Qed.
Print Assumptions C09_root_version.

Definition row_of (p n : str) (oh mode : Z) : row := mkRow p n oh (oh + 512) 0 0 mode 0 [] 0 0 false false false 0.

Definition sample : list row :=
  [row_of $"/a" $"f" 0 33188; row_of [] $"a" 0 16877; row_of $"/a" $"g" 1024 33188; row_of $"/a" $"f" 4096 33152;
   row_of [] [] 5120 16877; row_of $"/a" $"f" 2048 33261].

Example C09_example :
  any_order (@rev row) /\ simple_names sample /\ unique_rows sample /\ starts_with $"../" $"a/./f" = false /\
  denotes $"a/./f" = [$"a"; $"f"] /\
  versions 0 0 0 (@rev row) sample $"a/./f" = 3%nat /\
  map (fun v => option_map fi_mode (lookup 0 0 0 (@rev row) sample $"a/./f" v)) [-3; -2; -1; 0; 1; 2; 3; 4]
  = [None; Some 33188; Some 33261; Some 33152; Some 33188; Some 33261; Some 33152; None].
Proof.
  split; [intros l; symmetry; apply Permutation_rev|]. split.
  { intros r Hr. cbn in Hr. intuition (subst; cbn in *; intuition discriminate). }
  split.
  { intros i j a b Ha Hb E1 E2.
    do 6 (destruct i as [|i]; [do 6 (destruct j as [|j]; [cbn in Ha, Hb; injection Ha as <-; injection Hb as <-; first [reflexivity|discriminate E1|discriminate E2]|]); destruct j; discriminate Hb|]).
    destruct i; discriminate Ha. }
  repeat split.
Qed.

(** C10: [list] has a name exactly if the lookup of that entry succeeds, with the same attributes; [list_mode] has the
    same names with the modes; both give nothing for the same paths.  Every query may see the rows in another order. *)
Theorem C10_list_agrees_with_lookup :
  forall (now uid gid : Z) (sh1 sh2 sh3 : list row -> list row), any_order sh1 -> any_order sh2 -> any_order sh3 ->
  forall (files : list row) (path : str), simple_names files -> unique_rows files -> starts_with $"/" path = true ->
  (forall n, proper_name n ->
     lookup now uid gid sh2 files (path ++ slash :: n) 0 =
     match index_list sh1 files path with Some d => dget str_eqb d n | None => None end) /\
  (forall n, proper_name n ->
     option_map fi_mode (lookup now uid gid sh2 files (path ++ slash :: n) 0) =
     match list_mode sh3 files path with Some d => dget str_eqb d n | None => None end) /\
  (forall d, index_list sh1 files path = Some d -> NoDup (dkeys d) /\ ~ In [] (dkeys d)) /\
  match index_list sh1 files path, list_mode sh3 files path with
  | Some d, Some m => forall n, In n (dkeys d) <-> In n (dkeys m)
  | None, None => True
  | _, _ => False
  end.
Proof. intros now uid gid sh1 sh2 sh3 H1 H2 H3 files path. now apply list_agrees. Qed.
Print Assumptions C10_list_agrees_with_lookup.

Example C10_example :
  starts_with $"/" $"/a/" = true /\
  option_map (map (fun '(n, i) => (n, fi_mode i))) (index_list (@rev row) sample $"/a/") = Some [($"f", 33152); ($"g", 33188)] /\
  list_mode (fun l => l) sample $"/a/" = Some [($"f", 33152); ($"g", 33188)] /\
  option_map dkeys (index_list (@rev row) sample $"/") = Some [$"a"] /\
  index_list (@rev row) sample $"/a/f" = None.
Proof. repeat split. Qed.

(** Without the leading slash the two disagree for ".." (C15_query_refuted): list("..") lists the root, but no entry
    below ".." can be looked up. *)
Theorem C10_relative_path_refuted :
  exists (files : list row) (path n : str), simple_names files /\ unique_rows files /\ proper_name n /\
    (exists d i, index_list (fun l => l) files path = Some d /\ dget str_eqb d n = Some i) /\
    lookup 0 0 0 (fun l => l) files (path ++ slash :: n) 0 = None.
Proof.
  exists [row_of [] $"a" 0 16877], $"..", $"a". split.
  { intros r [<-|[]]. cbn. intuition discriminate. }
  split. { intros [|i] [|j] a b Ha Hb E1 E2; try (destruct i; discriminate); try (destruct j; discriminate); reflexivity. }
  split. { repeat split; try discriminate. cbn. intuition discriminate. }
  split; [do 2 eexists; split; reflexivity|reflexivity].
Qed.
Print Assumptions C10_relative_path_refuted.
