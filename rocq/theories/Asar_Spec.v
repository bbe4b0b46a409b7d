(** Specification of the ASAR format. *)
From Coq Require Import Ascii String Permutation.
From Verif Require Import PyBase PyStr PyInt Path_Spec FileInfo Index_Model Index_Spec Asar_Model.
Local Open Scope Z_scope.

(** The number that a JSON value stands for: numbers are written as decimal strings or as numbers. *)
Inductive means : jvalue -> Z -> Prop :=
| means_num z : means (JNum z) z
| means_str z : means (JStr (py_str z)) z.

(** Files have an offset and a size, folders have entries. *)
Definition is_file (e : entry) (offset size : Z) : Prop := exists o s, e = Entry (Some o) (Some s) None /\ means o offset /\ means s size.
Notation is_folder e fs := (e = Entry None None (Some fs)).

(** The entry [e] is found at location [loc] below [root]. *)
Inductive found : entry -> location -> entry -> Prop :=
| found_here e : found e [] e
| found_below root fs n child loc e : is_folder root fs -> In (n, child) fs -> found child loc e -> found root (n :: loc) e.

(** Header trees as the format defines them: every entry is a file or a folder; names are proper and unique in their folder. *)
Inductive tree_ok : entry -> Prop :=
| file_ok e o s : is_file e o s -> tree_ok e
| folder_ok e fs : is_folder e fs -> NoDup (map fst fs) -> Forall proper_name (map fst fs) -> Forall tree_ok (map snd fs) -> tree_ok e.

(** What a row says about the entry at [loc]. *)
Definition row_says (dataOffset : Z) (loc : location) (e : entry) (r : row) : Prop :=
  full_path r = written loc /\ ~ In slash (r_name r) /\ r_offsetheader r = 0 /\ r_mtime r = 0 /\ r_uid r = 0 /\ r_gid r = 0 /\ r_linkname r = [] /\
  ((exists fs, is_folder e fs /\ r_mode r = 16895 /\ r_size r = 0) \/
   (exists o s, is_file e o s /\ r_mode r = 33279 /\ r_size r = s /\ r_offset r = dataOffset + o)).

(** What the user sees: for a file its size and the place of its content. *)
Definition shown (dataOffset : Z) (e : entry) (i : finfo tar_data) : Prop :=
  (exists fs, is_folder e fs /\ is_dir_mode (fi_mode i) = true /\ fi_size i = 0) \/
  (exists o s u, is_file e o s /\ is_reg_mode (fi_mode i) = true /\ fi_size i = s /\ fi_userdata i = [u] /\ u_offset u = dataOffset + o).

(** The file format: four 32-bit numbers, the header, padding to a multiple of four, the contents. *)
Definition le32 (n : Z) : str :=
  map (fun k => ascii_of_nat (Z.to_nat (n / 256 ^ k mod 256))) [0; 1; 2; 3].
Definition padded (n : Z) : Z := (n + 3) / 4 * 4.
Definition asar_file (json padding contents : str) : str :=
  le32 4 ++ le32 (padded (len json) + 8) ++ le32 (padded (len json) + 4) ++ le32 (len json) ++ json ++ padding ++ contents.

(** Any JSON object that is looked at: the entry itself and what its "files" hold. *)
Inductive inside : entry -> entry -> Prop :=
| inside_here e : inside e e
| inside_below root o s fs n child e : root = Entry o s (Some fs) -> In (n, child) fs -> inside child e -> inside root e.
Definition one_kind (e : entry) : Prop :=
  (exists o s, e = Entry (Some o) (Some s) None) \/ (exists o s fs, e = Entry o s (Some fs) /\ (o = None \/ s = None)).
