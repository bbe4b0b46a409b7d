(** Specification of the members of a TAR archive as bytes. *)
From Coq Require Import Ascii String.
From Verif Require Import PyBase PyStr Path_Spec Tar_Model Tar_Spec.
Local Open Scope Z_scope.

(** The bytes of blocks: [render] gives the 512 bytes of each block. *)
Definition bytes_of {A} (render : block -> list A) (bs : list block) : list A := concat (map render bs).

(** The content of a member: the first [m_size] bytes of its data blocks. *)
Definition content_of {A} (render : block -> list A) (m : member) (body : list block) : list A :=
  firstn (Z.to_nat (m_size m)) (bytes_of render body).

(** The data blocks are as many as the size asks for, at least. *)
Definition fits (m : member) (body : list block) : Prop := 0 <= m_size m <= 512 * Z.of_nat (length body).

(** The location of a member. *)
Definition location_of (transform : str -> str) (prefix : str) (m : member) : location :=
  denotes (transform (prefix ++ $"/" ++ m_name m ++ (if Ascii.eqb (m_type m) "5" then $"/" else []))).

(** [(pos, m, body)] is the last member at location [loc]. *)
Definition last_at (transform : str -> str) (l : list (nat * member * list block)) (loc : location) (x : nat * member * list block) : Prop :=
  exists before after, l = before ++ x :: after /\ location_of transform [] (snd (fst x)) = loc /\
    forall pos m body, In (pos, m, body) after -> location_of transform [] m <> loc.

Definition none_below (transform : str -> str) (l : list (nat * member * list block)) (loc : location) : Prop :=
  forall pos m body rest, In (pos, m, body) l -> rest <> [] -> location_of transform [] m <> loc ++ rest.
