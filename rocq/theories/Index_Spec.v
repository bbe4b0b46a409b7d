(** Specification of the file index: members of an archive, in terms of the table rows and of locations (Path_Spec.v). *)
From Coq Require Import Ascii String Sorting.Sorted Sorting.Permutation.
From Verif Require Import PyBase PyStr Path_Spec FileInfo Index_Model.
Local Open Scope Z_scope.

(** The full path of a row. *)
Definition full_path (r : row) : str := r_path r ++ slash :: r_name r.

(** The rows of the member that a path denotes. *)
Definition at_path (p : str) (r : row) : bool := str_eqb (full_path r) (written (denotes p)).

(** [occ] are the occurrences of path [p] in the table, oldest first (the header offset is the position in the
    archive). *)
Definition occurrences (files : list row) (p : str) (occ : list row) : Prop :=
  Permutation occ (filter (at_path p) files) /\
  StronglySorted (fun a b => r_offsetheader a < r_offsetheader b) occ.

(** Names hold no slash. *)
Definition simple_names (files : list row) : Prop := forall r, In r files -> ~ In slash (r_name r).

(** No two rows agree in path, name and header offset (the primary key). *)
Definition unique_rows (files : list row) : Prop :=
  forall i j a b, nth_error files i = Some a -> nth_error files j = Some b ->
    full_path a = full_path b -> r_offsetheader a = r_offsetheader b -> i = j.

(** A query order: any permutation of the matching rows. *)
Definition any_order (shuffle : list row -> list row) : Prop := forall l, Permutation (shuffle l) l.

(** A row that a backend inserts: the canonical path of a member split at its last slash, i.e. the member at location
    [loc ++ [name]], or the root folder itself. *)
Definition member_row (r : row) (loc : location) (name : str) : Prop :=
  Forall proper_name loc /\ proper_name name /\ full_path r = written (loc ++ [name]).
Definition root_row (r : row) : Prop := r_path r = [] /\ r_name r = [].
Definition backend_row (r : row) : Prop := ~ In slash (r_name r) /\ (root_row r \/ exists loc name, member_row r loc name).

(** Reaching a member by listing folders from the root downwards. *)
Inductive reached (list_names : str -> option (list str)) : location -> Prop :=
| reached_root : reached list_names []
| reached_entry loc names n : reached list_names loc -> list_names (written loc) = Some names -> In n names ->
    reached list_names (loc ++ [n]).

(** The row that is generated for a missing folder [pre ++ [n]] because of the row [below]: a folder of size 0 with mode
    0o555 that takes over the offsets of [below]. *)
Definition generated_for (below r : row) (pre : location) (n : str) : Prop :=
  full_path r = written (pre ++ [n]) /\ r_mode r = S_IFDIR + 365 /\ r_size r = 0 /\ r_mtime r = 0 /\ r_linkname r = [] /\
  r_uid r = 0 /\ r_gid r = 0 /\ r_istar r = false /\ r_issparse r = false /\
  r_offsetheader r = r_offsetheader below /\ r_offset r = r_offset below /\
  exists rest name, member_row below (pre ++ n :: rest) name.

(** Same primary key. *)
Definition same_entry (a b : row) : Prop := full_path a = full_path b /\ r_offsetheader a = r_offsetheader b.

(** [r] is in the history and no later row of the history replaces it. *)
Definition last_inserted (r : row) (history : list row) : Prop :=
  exists before after, history = before ++ r :: after /\ forall r', In r' after -> ~ same_entry r' r.
