(** What an SQLAR file contains. *)
From Coq Require Import Ascii String.
From Verif Require Import PyBase PyStr Path_Spec Sqlar_Model.
Local Open Scope Z_scope.

(** Names and row ids are unique (PRIMARY KEY and rowid). *)
Definition proper_table (table : list srow) : Prop := NoDup (map s_name table) /\ NoDup (map s_rowid table).
(** Names may begin with slashes and have "." and empty components, but must not have "..", and must not be the root itself. *)
Definition stays (name : str) : Prop := denotes name <> [] /\ ~ In $".." (split "/"%char name).
(** The folders of every entry are in the table, too. *)
Definition parents_present (table : list srow) : Prop :=
  forall r loc n rest, In r table -> denotes (s_name r) = loc ++ n :: rest -> loc <> [] -> exists r', In r' table /\ denotes (s_name r') = loc.
(** No character is special in a pattern. *)
Definition plain_text (s : str) : Prop := forall c, In c s -> c <> "*"%char /\ c <> "?"%char /\ c <> "["%char.

(** The last row (with the greatest row id, in whose order the table is given) at a location. *)
Definition last_row (table : list srow) (loc : location) (r : srow) : Prop :=
  exists before after, table = before ++ r :: after /\ denotes (s_name r) = loc /\ Forall (fun x => denotes (s_name x) <> loc) after.

(** The content that was stored, as the documentation of SQLAR says: raw if the size is the length, else compressed. *)
Definition stored (deflate : str -> str) (content : str) (r : srow) : Prop :=
  s_sz r = Z.of_nat (length content) /\
  s_data r = Some (if Nat.ltb (length (deflate content)) (length content) then deflate content else content).

(** The names in a listing. *)
Definition listed (l : listing) : list str := match l with Names l => l | Infos l => map fst l end.
Definition listed_modes (l : listing + list (str * Z)) : list str := match l with inl l => listed l | inr l => map fst l end.
