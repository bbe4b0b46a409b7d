(** What a sparse member contains. *)
From Verif Require Import PyBase.
Local Open Scope Z_scope.

Section Spec.
  Context {A : Type} (zero : A).
  (** Pieces of data with their positions in the file. *)
  Definition pieces := list (Z * list A).
  Definition covers (p : Z) (c : Z * list A) : bool := (fst c <=? p) && (p <? fst c + Z.of_nat (length (snd c))).
  (** The byte at a position: from the piece there, zero if there is none. *)
  Definition sparse_byte (cs : pieces) (p : Z) : A :=
    match find (covers p) cs with Some (o, d) => nth (Z.to_nat (p - o)) d zero | None => zero end.
  Definition sparse_content (cs : pieces) (real : Z) : list A := map (fun k => sparse_byte cs (Z.of_nat k)) (seq 0 (Z.to_nat real)).

  (** The map of the pieces as it is in the header, with any number of pairs (0, 0) for padding. *)
  Definition padding (c : Z * list A) : Prop := fst c = 0 /\ snd c = [].
  Definition map_of (cs : pieces) : list (Z * Z) := map (fun c => (fst c, Z.of_nat (length (snd c)))) cs.
  (** The pieces are in order, do not overlap and end before the end of the file. *)
  Fixpoint ordered (from : Z) (cs : pieces) (real : Z) : Prop :=
    match cs with
    | [] => from <= real
    | c :: r => (padding c /\ ordered from r real) \/ (from <= fst c /\ ordered (fst c + Z.of_nat (length (snd c))) r real)
    end.
  (** The data of the pieces is stored one after the other from [base]. *)
  Definition stored (archive : list A) (base : Z) (cs : pieces) : Prop :=
    0 <= base /\ firstn (length (concat (map snd cs))) (skipn (Z.to_nat base) archive) = concat (map snd cs).
  (** Each piece with data starts at the start of a TAR block. *)
  Fixpoint aligned (base : Z) (cs : pieces) : Prop :=
    match cs with
    | [] => True
    | c :: r => (snd c = [] \/ (512 | base)) /\ aligned (base + Z.of_nat (length (snd c))) r
    end.
  (** Some position is in no piece. *)
  Definition has_hole (cs : pieces) (real : Z) : Prop := exists p, 0 <= p < real /\ find (covers p) cs = None.
End Spec.
