(** Specification of folder mounts. *)
From Coq Require Import Ascii String Permutation.
From Verif Require Import PyBase PyStr Path_Spec FileInfo Folder_Model.
Local Open Scope Z_scope.

(** The path of the entry at [loc] for the operating system. *)
Definition os_path (root : str) (loc : location) : str :=
  root ++ (if str_eqb root [] || ends_with $"/" root then [] else $"/") ++ join $"/" loc.

(** Following the components of a link that is in the folder [loc] leaves the mounted folder at some step. *)
Fixpoint leaves (loc : location) (comps : list str) : Prop :=
  match comps with
  | [] => False
  | c :: rest => (c = $".." /\ loc = []) \/ leaves (enter loc c) rest
  end.
Definition relative (target : str) : Prop := forall t, target <> slash :: t.

(** The entry [e] is found at location [loc] below [root]. *)
Inductive found : node -> location -> node -> Prop :=
| found_here e : found e [] e
| found_below s l fs n child loc e : In (n, child) fs -> found child loc e -> found (Node s l (Some fs)) (n :: loc) e.

(** File trees: the type in the mode says what the entry is; names are proper and unique in their folder. *)
Definition kind_ok (e : node) : Prop :=
  is_dir_mode (st_mode (n_stats e)) = (match n_children e with Some _ => true | None => false end) /\
  is_lnk_mode (st_mode (n_stats e)) = (match n_link e with Some _ => true | None => false end).
Inductive tree_ok : node -> Prop :=
| leaf_ok s l : kind_ok (Node s l None) -> tree_ok (Node s l None)
| folder_ok s l fs : kind_ok (Node s l (Some fs)) -> NoDup (map fst fs) -> Forall proper_name (map fst fs) -> Forall tree_ok (map snd fs) ->
    tree_ok (Node s l (Some fs)).

(** File information that shows what stat returned. *)
Definition shows_stats {U} (s : stats) (i : finfo U) : Prop :=
  fi_size i = st_size s /\ fi_mtime i = st_mtime s /\ fi_mode i = st_mode s /\ fi_uid i = st_uid s /\ fi_gid i = st_gid s.

(** The file type bits of a mode. *)
Definition file_type (mode : Z) : Z := Z.land mode 61440.
