(** Model of core/ratarmountcore/mountsource/compositing/removeprefix.py: a source moved into a subfolder. *)
From Coq Require Import Ascii String.
From Verif Require Import PyBase PyDict PyStr Path_Model FileInfo Union_Model.
Local Open Scope Z_scope.

(** The prefix computed by the constructor, removeprefix.py:18. *)
Definition prefix_of (path : str) : str := rstrip slash (posix_normpath (slash :: lstrip slash path)) ++ $"/".

(** What _parse_path decides to do with a path: ask the source, ask for the folder that contains the name, or return the default. *)
Inductive route := ToSource (p : str) | ToFolder (name : str) | Nowhere.

(** _parse_path, removeprefix.py:22-33. *)
Definition parse_path (prefix path : str) : route :=
  let path := if starts_with $"/" path then path else slash :: path in
  let path := if ends_with $"/" path then path else path ++ $"/" in
  if starts_with prefix path then ToSource (py_slice path (len prefix - 1) (-1))
  else if starts_with path prefix then ToFolder (hd [] (split slash (skipn (length path) prefix)))
  else Nowhere.

Section Model.
  Context {U : Type}.
  Variable prefix : str.
  Variable m : source U.

  (** The entries of the folders above the source, [None] is self._directory_info. *)
  (** lookup, removeprefix.py:44-46: the requested version is not forwarded. *)
  Definition p_lookup (path : str) (v : Z) : option (option (finfo U)) :=
    match parse_path prefix path with
    | ToSource p => option_map Some (s_lookup m p 0)
    | ToFolder _ => Some None
    | Nowhere => None
    end.
  (** versions, removeprefix.py:48-50. *)
  Definition p_versions (path : str) : nat :=
    match parse_path prefix path with ToSource p => s_versions m p | ToFolder _ => 1 | Nowhere => 0 end.
  (** list, removeprefix.py:37-38: the listing of the source, or a folder with one name. *)
  Definition p_list (path : str) : option (listing (finfo U) + str) :=
    match parse_path prefix path with ToSource p => Some (inl (s_list m p)) | ToFolder n => Some (inr n) | Nowhere => None end.
  (** list_mode, removeprefix.py:40-42. *)
  Definition p_list_mode (path : str) : option (listing Z + str) :=
    match parse_path prefix path with ToSource p => Some (inl (s_list_mode m p)) | ToFolder n => Some (inr n) | Nowhere => None end.
End Model.
