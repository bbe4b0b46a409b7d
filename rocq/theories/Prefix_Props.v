(** Sources moved below a prefix: theorems. *)
From Coq Require Import Ascii String.
From Verif Require Import PyBase PyDict PyStr Path_Model Path_Spec Path_Proofs FileInfo Union_Model Union_Spec Tree_Source Prefix_Model Prefix_Proofs.
Local Open Scope Z_scope.

(** The source does not distinguish "" and "/". *)
Definition root_alias {U} (m : source U) : Prop :=
  (forall v, s_lookup m [] v = s_lookup m $"/" v) /\ s_versions m [] = s_versions m $"/" /\ s_list m [] = s_list m $"/" /\ s_list_mode m [] = s_list_mode m $"/".

(** At and below the prefix (however it was written) the source answers for the remaining path; lookups only without a version. *)
Theorem C25_inside_prefix_partial {U} (m : source U) path rest :
  root_alias m -> Forall proper_name rest ->
  let prefix := prefix_of path in let p := written (denotes path ++ rest) in
  p_lookup prefix m p 0 = option_map Some (s_lookup m (written rest) 0) /\ p_versions prefix m p = s_versions m (written rest) /\
  p_list prefix m p = Some (inl (s_list m (written rest))) /\ p_list_mode prefix m p = Some (inl (s_list_mode m (written rest))).
Proof.
  intros (A1 & A2 & A3 & A4) Hr prefix p. unfold p_lookup, p_versions, p_list, p_list_mode, prefix, p. rewrite prefix_of_spec.
  rewrite route_inside by (assumption || apply denotes_proper). destruct rest as [|x r].
  - unfold folder_of. change (written []) with $"/". now rewrite A1, A2, A3, A4.
  - auto.
Qed.
Print Assumptions C25_inside_prefix_partial.

(** Above the prefix there are folders with exactly one name, the next component of the prefix. *)
Theorem C25_above_prefix {U} (m : source U) path loc n r v :
  denotes path = loc ++ n :: r ->
  let prefix := prefix_of path in let p := written loc in
  p_lookup prefix m p v = Some None /\ p_versions prefix m p = 1%nat /\ p_list prefix m p = Some (inr n) /\ p_list_mode prefix m p = Some (inr n).
Proof.
  intros E prefix p. unfold p_lookup, p_versions, p_list, p_list_mode, prefix, p. rewrite prefix_of_spec, E. pose proof (denotes_proper path) as Hp. rewrite E in Hp.
  rewrite route_above by assumption. auto.
Qed.
Print Assumptions C25_above_prefix.

(** There is nothing else. *)
Theorem C25_nothing_else {U} (m : source U) path loc v :
  Forall proper_name loc -> (forall rest, loc <> denotes path ++ rest) -> (forall rest, denotes path <> loc ++ rest) ->
  let prefix := prefix_of path in let p := written loc in
  p_lookup prefix m p v = None /\ p_versions prefix m p = O /\ p_list prefix m p = None /\ p_list_mode prefix m p = None.
Proof.
  intros Hl H1 H2 prefix p. unfold p_lookup, p_versions, p_list, p_list_mode, prefix, p. rewrite prefix_of_spec.
  rewrite route_elsewhere by (assumption || apply denotes_proper). auto.
Qed.
Print Assumptions C25_nothing_else.

Definition psrc : source unit := tree_source [([$"f"], afile 1); ([$"f"], afile 2)] true.
Example C25_example :
  let prefix := prefix_of $"/a/./b/" in
  denotes $"/a/./b/" = [$"a"; $"b"] /\
  p_lookup prefix psrc $"/a/b/f" 0 = Some (Some (afile 2)) /\ p_lookup prefix psrc $"/a/b/g" 0 = None /\
  p_list prefix psrc $"/a" = Some (inr $"b") /\ p_lookup prefix psrc $"/ab" 0 = None /\ p_versions prefix psrc $"/a/b/f" = 2%nat.
Proof. vm_compute. repeat split; reflexivity. Qed.
Example C25_root_alias : root_alias (mkSource (fun p v => s_lookup psrc (normpath p) v) (fun p => s_versions psrc (normpath p)) (fun p => s_list psrc (normpath p)) (fun p => s_list_mode psrc (normpath p)) true).
Proof. repeat split. Qed.

(** The version is not passed on: every version of prefix/x is the newest version of x. *)
Theorem C25_versions_refuted :
  exists (m : source unit) v, coherent m /\
    p_lookup (prefix_of $"/a") m $"/a/f" v = Some (Some (afile 2)) /\ s_lookup m $"/f" v = Some (afile 1) /\ p_versions (prefix_of $"/a") m $"/a/f" = 2%nat.
Proof.
  exists psrc, 1. split; [apply tree_coherent; well_formed_tree|]. vm_compute. repeat split; reflexivity.
Qed.
Print Assumptions C25_versions_refuted.
