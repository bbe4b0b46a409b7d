(** What a RAR archive contains. *)
From Coq Require Import Ascii String.
From Verif Require Import PyBase PyStr Path_Spec Rar_Model.

(** An entry with a relative name, other than the root, with its location.  Backslashes and drive letters do not occur here:
    rarfile converts them. *)
Definition relative (name : str) : Prop := (forall r, name <> "/"%char :: r) /\ denotes name <> [].
Definition archive_entry (infolist : list (str * rar_info)) (loc : location) (i : rar_info) : Prop :=
  exists name, In (name, i) infolist /\ denotes name = loc.
(** The last entry at a location, when all entries there are written alike (a folder's name ends with a slash). *)
Definition last_entry (infolist : list (str * rar_info)) (loc : location) (i : rar_info) : Prop :=
  exists before name after, infolist = before ++ (name, i) :: after /\ denotes name = loc /\
    Forall (fun e => denotes (fst e) <> loc) after /\
    Forall (fun e => denotes (fst e) = loc -> ((exists p, fst e = p ++ $"/") <-> (exists p, name = p ++ $"/"))) before.
(** Something is there: the root, an entry or a folder that holds an entry. *)
Definition present (infolist : list (str * rar_info)) (loc : location) : Prop :=
  loc = [] \/ exists name i rest, In (name, i) infolist /\ denotes name = loc ++ rest.
