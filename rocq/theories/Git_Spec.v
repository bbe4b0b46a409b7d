(** Specification for C88 and C89: a commit as a tree of names. *)
From Coq Require Import Ascii String.
From Verif Require Import PyBase PyDict PyStr FileInfo Path_Model Path_Spec Git_Model.
Local Open Scope Z_scope.

(** The object at a location: nothing lies below a file. *)
Fixpoint object_at (o : gobj) (loc : list str) : option gobj :=
  match loc with
  | [] => Some o
  | name :: r =>
      match o with
      | GTree entries =>
          match find (fun e => str_eqb (fst e) name) entries with Some (_, o') => object_at o' r | None => None end
      | _ => None
      end
  end.

(** Git trees: names are file names, each once; so it goes on below. *)
Inductive proper_tree : gobj -> Prop :=
| proper_blob l d : proper_tree (GBlob l d)
| proper_module : proper_tree GModule
| proper_entries es : NoDup (map fst es) -> (forall n o, In (n, o) es -> proper_name n /\ proper_tree o) -> proper_tree (GTree es).

(** What is shown of an object. *)
Definition kind_mode (o : gobj) : Z :=
  match o with
  | GTree _ => 16384 + 365        (* dr-xr-xr-x *)
  | GBlob true _ => 40960 + 365   (* lr-xr-xr-x *)
  | _ => 32768 + 365              (* -r-xr-xr-x *)
  end.
Definition shown_size (o : gobj) : Z := match o with GBlob _ d => len d | _ => 0 end.
Definition is_tree (o : gobj) : Prop := exists es, o = GTree es.

(** The names in a path, however many slashes separate them. *)
Definition components (path : str) : list str := filter (fun c => match c with [] => false | _ => true end) (split slash path).

(** No file lies on the way to a location. *)
Definition only_folders_before (o : gobj) (loc : list str) : Prop :=
  forall a b x, loc = a ++ b -> b <> [] -> object_at o a = Some x -> is_tree x.

(** git:// URLs, as documented: git://[repository:][reference@]path *)
Definition git_url (repo reference : option str) (inside : str) : str :=
  $"git://" ++ (match repo with Some r => r ++ $":" | None => [] end) ++ (match reference with Some r => r ++ $"@" | None => [] end) ++ inside.

(** The same file, found under another path. *)
Definition same_file (a b : res (option (finfo str))) : Prop :=
  match a, b with
  | Err e, Err e' => e = e'
  | Ok None, Ok None => True
  | Ok (Some i), Ok (Some j) =>
      fi_size i = fi_size j /\ fi_mtime i = fi_mtime j /\ fi_mode i = fi_mode j /\ fi_linkname i = fi_linkname j /\
      fi_uid i = fi_uid j /\ fi_gid i = fi_gid j
  | _, _ => False
  end.
