(** Model of Python's [posixpath.normpath] and of SQLiteIndex.normpath / _query_normpath. *)
From Coq Require Import Ascii String.
From Verif Require Import PyBase PyStr.

(** The loop over the components in CPython's posixpath.normpath (Lib/posixpath.py).  [slashes] is the number of initial
    slashes that are kept. *)
Definition norm_comp (slashes : nat) (acc : list str) (comp : str) : list str :=
  if str_eqb comp [] || str_eqb comp $"." then acc
  else if negb (str_eqb comp $"..")
          || (Nat.eqb slashes 0 && match acc with [] => true | _ => false end)
          || match rev acc with last :: _ => str_eqb last $".." | [] => false end
  then acc ++ [comp]
  else removelast acc.

(** posixpath.normpath (Lib/posixpath.py): leading "//" is kept, other numbers of leading slashes collapse to one. *)
Definition posix_normpath (path : str) : str :=
  match path with
  | [] => $"."
  | _ =>
    let slashes := if starts_with $"/" path then
                     if starts_with $"//" path && negb (starts_with $"///" path) then 2 else 1
                   else 0 in
    let comps := fold_left (norm_comp slashes) (split slash path) [] in
    let result := repeat slash slashes ++ join $"/" comps in
    match result with [] => $"." | _ => result end
  end.

(** SQLiteIndex.normpath, SQLiteIndex.py:803-810. *)
Definition normpath (path : str) : str := slash :: lstrip slash (posix_normpath (slash :: path)).

(** SQLiteIndex._query_normpath, SQLiteIndex.py:812-817. *)
Definition query_normpath (path : str) : str :=
  slash :: lstrip slash (posix_normpath (if starts_with $"../" path then path else slash :: path)).
