(** Property C20: using a FileInfo through mount layers. *)
From Coq Require Import Ascii String.
From Verif Require Import PyBase PyDict PyStr Layers_Model Layers_Spec Layers_Proofs.

(** get_mount_source leaves every existing FileInfo unchanged, on every exit and for every nesting of layers. *)
Theorem C20_get_mount_source_unchanged :
  forall (is_dir_info : nat -> list value -> bool) (fuel : nat) (l : layer) (h : heap) (r : nat),
  (r < length h)%nat -> unchanged h (snd (get_ms is_dir_info fuel l h r)).
Proof. intros i fuel l h r Hr. apply (get_ms_unchanged i fuel l h r Hr). Qed.
Print Assumptions C20_get_mount_source_unchanged.

(** open, read, list_xattr and get_xattr leave every FileInfo unchanged, on every exit (also when the innermost source
    raises or the recursion limit is hit), if the userdata does not hold the marker None of a subvolume folder. *)
Theorem C20_handle_unchanged_partial :
  forall (payload : Type) (no_attributes no_value : payload) (leaf : nat -> op -> list value -> res payload)
         (is_dir_info : nat -> list value -> bool) (is_root_info : list (str * layer) -> list value -> bool)
         (fuel : nat) (o : op) (l : layer) (h : heap) (r : nat),
  (r < length h)%nat -> ~ In (VName None) (cell h r) ->
  unchanged h (snd (exec payload no_attributes no_value leaf is_dir_info is_root_info fuel o l h r)).
Proof. intros payload na nv leaf i1 i2 fuel o l h r. apply exec_unchanged. Qed.
Print Assumptions C20_handle_unchanged_partial.

(** An open or read of a file arrives at the source the FileInfo belongs to, with the userdata that belongs to it; and a
    second use of the same FileInfo gives the same. *)
Theorem C20_reaches_owner_twice :
  forall (payload : Type) (no_attributes no_value : payload) (leaf : nat -> op -> list value -> res payload)
         (is_dir_info : nat -> list value -> bool) (is_root_info : list (str * layer) -> list value -> bool)
         (o : op) (l : layer) (i : nat) (h : heap) (r : nat) (s' : list value),
  match o with OpOpen _ | OpRead _ _ => True | _ => False end ->
  (r < length h)%nat -> ~ In (VName None) (cell h r) ->
  ~ In VFile (tl (cell h r)) ->
  belongs is_dir_info l (cell h r) (LLeaf i) s' ->
  exists depth, forall fuel, (depth <= fuel)%nat ->
  let run h := exec payload no_attributes no_value leaf is_dir_info is_root_info fuel o l h r in
  fst (run h) = leaf i o s' /\ fst (run (snd (run h))) = leaf i o s'.
Proof.
  intros payload na nv leaf i1 i2 o l i h r s' Ho Hr Hn Hv B.
  destruct (exec_owner i1 na nv leaf i2 o l (cell h r) i s' Ho B Hv) as [N HN]. exists N. intros fuel Hf run. split.
  - now apply HN.
  - destruct (exec_unchanged i1 na nv leaf i2 fuel o l h r Hr Hn) as [L U]. apply HN; [assumption| |].
    + change (snd (run h)) with (snd (exec payload na nv leaf i1 i2 fuel o l h r)). lia.
    + now apply U.
Qed.
Print Assumptions C20_reaches_owner_twice.

(** get_mount_source finds the owner and a FileInfo for it, if no version layer is passed on the way. *)
Theorem C20_mount_source_owner_partial :
  forall (is_dir_info : nat -> list value -> bool) (l : layer) (s : list value) (l' : layer) (s' : list value),
  belongs is_dir_info l s l' s' -> ~ In VFile s ->
  exists depth, forall fuel, (depth <= fuel)%nat -> forall h r, (r < length h)%nat -> cell h r = s ->
  exists p r', fst (get_ms is_dir_info fuel l h r) = Ok (p, l', r') /\ cell (snd (get_ms is_dir_info fuel l h r)) r' = s'.
Proof. exact get_ms_owner. Qed.
Print Assumptions C20_mount_source_owner_partial.

(** A version layer on a union of an automount layer on two subvolumes: the hypotheses are met. *)
Definition sample_stack : layer :=
  LVersion (LAuto [($"/", LUnion); ($"/a.tar", LLeaf 9)]).
Definition sample_info : list value :=
  [VFile; VName (Some $"/"); VLayer (LSub [($"x", Some (LLeaf 3)); ($"y", None)]); VName (Some $"x"); VOther 42].
Example C20_example :
  belongs (fun _ _ => false) sample_stack sample_info (LLeaf 3) [VOther 42] /\
  ~ In (VName None) sample_info /\ ~ In VFile (tl sample_info) /\
  (let '(x, h) := exec (list value) [] [] (fun i o s => Ok (VOther i :: s)) (fun _ _ => false) (fun _ _ => false) 10 (OpRead 5 7)
                   sample_stack [[]; sample_info] 1 in
   x = Ok [VOther 3; VOther 42] /\ firstn 2 h = [[]; sample_info]) /\
  (let '(x, h) := exec (list value) [] [] (fun i o s => Err EIO) (fun _ _ => false) (fun _ _ => false) 10 (OpRead 5 7)
                   sample_stack [[]; sample_info] 1 in
   x = Err EIO /\ firstn 2 h = [[]; sample_info]).
Proof.
  split; [|split; [|split; [|repeat split]]].
  - apply BVersion. apply BAuto with LUnion; [reflexivity|]. apply BUnion. apply BSub with (LLeaf 3); [reflexivity|]. apply BLeaf.
  - cbn. intuition discriminate.
  - cbn. intuition discriminate.
Qed.

(** The restriction to None-free userdata is needed: opening a folder above the mount points of a subvolume layer drops the
    marker; the second use of the same FileInfo then fails differently. *)
Theorem C20_subvolume_folder_refuted :
  exists (h : heap) (l : layer),
  let run h := exec unit tt tt (fun _ _ _ => Ok tt) (fun _ _ => false) (fun _ _ => false) 5 (OpOpen (-1)) l h 0 in
  cell h 0 = [VName None] /\ cell (snd (run h)) 0 = [] /\
  fst (run h) = Err ValueError /\ fst (run (snd (run h))) = Err IndexError.
Proof. exists [[VName None]], (LSub [($"x", Some (LLeaf 0))]). repeat split. Qed.
Print Assumptions C20_subvolume_folder_refuted.

(** The restriction to stacks without version layer is needed: the FileInfo that a version layer returns together with the
    innermost source is the caller's own one, with the version layer's marker on it, and not the one for that source. *)
Theorem C20_version_alias_refuted :
  exists (h : heap) (l : layer) (i : nat) (s' : list value) (p : str) (r' : nat),
  belongs (fun _ _ => false) l (cell h 0) (LLeaf i) s' /\
  fst (get_ms (fun _ _ => false) 5 l h 0) = Ok (p, LLeaf i, r') /\
  cell (snd (get_ms (fun _ _ => false) 5 l h 0)) r' = VFile :: s'.
Proof.
  exists [[VFile; VOther 5]], (LVersion (LLeaf 2)), 2%nat, [VOther 5], $"/", 0%nat. repeat split.
  apply BVersion, BLeaf.
Qed.
Print Assumptions C20_version_alias_refuted.
