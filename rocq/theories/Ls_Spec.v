(** What a listing of a TAR archive shows. *)
From Coq Require Import Ascii String.
From Verif Require Import PyBase PyStr Path_Spec Tar_Model TarRead_Spec.
Local Open Scope Z_scope.

(** Some member is at a location below [loc ++ [n]] or at it. *)
Definition holds_name (transform : str -> str) (l : list (nat * member * list block)) (loc : location) (n : str) : Prop :=
  exists pos m body rest, In (pos, m, body) l /\ location_of transform [] m = loc ++ n :: rest.

(** The bits for the type of the file, man 7 inode, for the types of members in TAR archives. *)
Definition type_bits (c : ascii) (bits : Z) : Prop :=
  In (c, bits) [("0", 32768); ("000", 32768); ("7", 32768); ("5", 16384); ("2", 40960); ("3", 8192); ("6", 4096)]%char.
