(** Specification of where indexes are looked for (C44, C55, C56, C57, C58). *)
From Coq Require Import Ascii String.
From Verif Require Import PyBase PyStr Path_Spec.

(** A URL is a path with :// in it. *)
Definition url (p : str) : Prop := exists a b, p = a ++ $"://" ++ b.

(** The same text with an underscore for every slash. *)
Definition underscored (a b : str) : Prop :=
  Forall2 (fun c d => (c = "/"%char /\ d = "_"%char) \/ (c <> "/"%char /\ d = c)) a b.

(** The folder that is meant by a spelling: "~" or "~user" is the home folder if there is one, relative folders are meant from
    the current folder. *)
Inductive full_folder (home : str -> option str) (cwd : str) : str -> str -> Prop :=
| full_absolute f : full_folder home cwd ("/"%char :: f) ("/"%char :: f)
| full_home h user rest : ~ In "/"%char user -> home ("~"%char :: user) = Some h -> rest = [] \/ (exists r, rest = "/"%char :: r) ->
    full_folder home cwd ("~"%char :: user ++ rest) (h ++ rest)
| full_unknown user rest : ~ In "/"%char user -> home ("~"%char :: user) = None -> rest = [] \/ (exists r, rest = "/"%char :: r) ->
    full_folder home cwd ("~"%char :: user ++ rest) (cwd ++ $"/" ++ "~"%char :: user ++ rest)
| full_relative c f : c <> "/"%char -> c <> "~"%char -> full_folder home cwd (c :: f) (cwd ++ $"/" ++ c :: f).

(** The files that are left after the files [gone] were removed where that is possible. *)
Definition without {C} (removable : str -> bool) (gone : list str) (before after : str -> option C) : Prop :=
  forall p, (~ In p gone -> after p = before p) /\
            (In p gone -> after p = if removable p then None else before p).
