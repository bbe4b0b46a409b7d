(** What a mounted TAR archive shows at a location. *)
From Coq Require Import Ascii String.
From Verif Require Import PyBase PyStr Path_Spec Tar_Model Tar_Spec TarRead_Spec.
Local Open Scope Z_scope.

(** A regular file, or one of an old type that counts as one, which is not sparse, whose data is in the archive, and whose mode field has
    no bits for the type of the file. *)
Definition regular_file (m : member) (body : list block) : Prop :=
  In (m_type m) ["0"; "000"; "7"]%char /\ m_sparse m = false /\ fits m body /\ Z.land (m_mode m) 61440 = 0.
(** A hard link: a member of type 1 whose mode field has no bits for the type of the file. *)
Definition hard_link_member (m : member) : Prop := m_type m = "1"%char /\ Z.land (m_mode m) 61440 = 0 /\ m_link m <> [].

(** [shows n loc m body]: after [n] hard links, the location shows the member [m] with the data blocks [body]. *)
Inductive shows (transform : str -> str) (l : list (nat * member * list block)) : nat -> location -> member -> list block -> Prop :=
| shows_file loc pos m body : last_at transform l loc (pos, m, body) -> none_below transform l loc -> regular_file m body -> shows transform l 0 loc m body
| shows_link n loc pos h hb m body :
    last_at transform l loc (pos, h, hb) -> none_below transform l loc -> hard_link_member h ->
    denotes (slash :: m_link h) <> loc -> denotes (slash :: m_link h) <> [] -> shows transform l n (denotes (slash :: m_link h)) m body -> shows transform l (S n) loc m body.
