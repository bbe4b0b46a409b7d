(** Property C14: extended attributes. *)
From Coq Require Import Ascii String Sorting.Permutation.
From Verif Require Import PyBase PyDict PyStr Path_Model FileInfo Index_Model Xattr_Model Xattr_Spec Xattr_Proofs Build_Props.
Local Open Scope Z_scope.

(** C14: after any history of insertions (entry, key, value), [get_xattr] returns the last value inserted for the entry
    and key (nothing if there is none), and [list_xattr] lists exactly the inserted keys of the entry, each once.
    An entry is identified by its header offset. *)
Theorem C14_xattrs_last_write :
  forall (V : Type) (shuffle : list (Z * str * V) -> list (Z * str * V)), (forall l, Permutation (shuffle l) l) ->
  forall (history : list (Z * str * V)) (info : finfo tar_data) (oh : Z), entry_at info oh ->
  let x := setxattrs no_xattrs history in
  (forall key, get_xattr shuffle x info key = last_value history oh key) /\
  NoDup (list_xattr shuffle x info) /\
  (forall key, In key (list_xattr shuffle x info) <-> exists v, In (oh, key, v) history).
Proof.
  intros V shuffle Hsh history info oh He x. split; [intros key; now apply get_correct|]. now apply list_correct.
Qed.
Print Assumptions C14_xattrs_last_write.

(** Insertions may be grouped into calls in any way. *)
Theorem C14_batching :
  forall (V : Type) (x : xattrs V) (a b : list (Z * str * V)), setxattrs x (a ++ b) = setxattrs (setxattrs x a) b.
Proof. intros V x a b. apply fold_left_app. Qed.
Print Assumptions C14_batching.

Definition entry_info (oh : Z) (generated : bool) : finfo tar_data := mkInfo 0 0 33188 [] 0 0 [mkTD 512 oh false false generated 0].

Example C14_example :
  entry_at (entry_info 0 false) 0 /\
  let x := setxattrs no_xattrs [(0, $"user.a", 1%nat); (512, $"user.a", 2%nat); (0, $"user.b", 3%nat); (0, $"user.a", 4%nat)] in
  list_xattr (@rev _) x (entry_info 0 false) = [$"user.a"; $"user.b"] /\
  get_xattr (@rev _) x (entry_info 0 false) $"user.a" = Some 4%nat /\
  get_xattr (@rev _) x (entry_info 512 false) $"user.a" = Some 2%nat /\
  get_xattr (@rev _) x (entry_info 512 false) $"user.b" = None /\
  list_xattr (@rev _) x (entry_info 0 true) = [].
Proof. split; [exists [], (mkTD 512 0 false false false 0); repeat split|]. repeat split. Qed.

(** The identification by header offset fails for generated parent folders: such a folder takes over the header offset of
    the first entry below it, but is not marked as generated, so it shows the attributes of that file. *)
Theorem C14_folder_attributes_refuted :
  exists (history : list insertion) (i : finfo tar_data),
    (forall r, In r (inserted_rows history) -> Index_Spec.full_path r <> $"/a") /\
    lookup 0 0 0 (fun l => l) (build history) $"/a" 0 = Some i /\ is_dir_mode (fi_mode i) = true /\
    list_xattr (fun l => l) (setxattrs no_xattrs [(0, $"user.secret", 7%nat)]) i = [$"user.secret"].
Proof.
  exists [One (brow $"/a" $"f" 0 33188)]. eexists. split.
  - intros r [<-|[]]. discriminate.
  - split; [reflexivity|]. split; reflexivity.
Qed.
Print Assumptions C14_folder_attributes_refuted.
