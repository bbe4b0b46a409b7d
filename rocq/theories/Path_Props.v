(** Property C15: path normalization. *)
From Coq Require Import Ascii String.
From Verif Require Import PyBase PyStr Path_Model Path_Spec Path_Proofs.

(** C15: the normalized path is the canonical writing of the location that lexical resolution of the given path below
    the root leads to (where ".." of the root is the root); its components are proper names (not empty, not ".", not
    "..", without slash); normalizing again changes nothing. *)
Theorem C15_normpath_confines :
  forall path : str,
    normpath path = written (denotes path) /\
    Forall proper_name (denotes path) /\
    normpath (normpath path) = normpath path /\
    starts_with $"/" (normpath path) = true /\
    (denotes path <> [] -> Forall proper_name (tl (split slash (normpath path)))).
Proof.
  intros path. repeat split.
  - apply normpath_written.
  - apply denotes_proper.
  - apply normpath_idempotent.
  - intros H. rewrite normpath_written, split_written by (apply denotes_proper || assumption). cbn [tl]. apply denotes_proper.
Qed.
Print Assumptions C15_normpath_confines.

Example C15_example :
  normpath $"../..//./usr/../etc//passwd/." = $"/etc/passwd" /\ normpath $"//a/.." = $"/" /\ normpath $"" = $"/" /\
  normpath $".../..a/b.." = $"/.../..a/b..".
Proof. repeat split. Qed.

(** Two paths are normalized to the same string exactly if they denote the same location. *)
Theorem C15_normpath_canonical :
  forall a b : str, normpath a = normpath b <-> denotes a = denotes b.
Proof.
  intros a b. rewrite !normpath_written. split; [|congruence]. apply written_inj; apply denotes_proper.
Qed.
Print Assumptions C15_normpath_canonical.

Example C15_canonical_example : normpath $"a/./b/" = normpath $"/a/c/../b" /\ normpath $"a/b" <> normpath $"a/b/c".
Proof. split; [reflexivity|]. intros E. apply C15_normpath_canonical in E. discriminate E. Qed.

(** Queries are normalized the same way, unless they start with "../". *)
Theorem C15_query_partial :
  forall path : str, starts_with $"../" path = false -> query_normpath path = normpath path.
Proof. exact query_normpath_norm. Qed.
Print Assumptions C15_query_partial.

(** The exception is visible: "../a" is stored as "/a", but queried as "/../a". *)
Theorem C15_query_refuted :
  exists path : str, query_normpath path <> normpath path /\
    ~ Forall proper_name (tl (split slash (query_normpath path))).
Proof.
  exists $"../a". split; [discriminate|]. intros H.
  change (tl (split slash (query_normpath $"../a"))) with [$".."; $"a"] in H. inversion H as [|? ? (_ & _ & Hn & _) _]. now apply Hn.
Qed.
Print Assumptions C15_query_refuted.
