(** What a user of a mounted folder relies on, independently of the front end's code. *)
From Coq Require Import Ascii String.
From Verif Require Import PyBase PyStr Path_Spec FileInfo.
Local Open Scope Z_scope.

(** What [list_mode] returns: None, an iterable of names, or a dictionary of modes. *)
Inductive listing := NoListing | NameList (names : list str) | ModeDict (modes : list (str * Z)).

(** The names of a listing, and its modes where it has some. *)
Definition listing_names (l : listing) : list str :=
  match l with NoListing => [] | NameList n => n | ModeDict d => map fst d end.
Definition listed_mode (l : listing) (n : str) (m : Z) : Prop := exists d, l = ModeDict d /\ In (n, m) d.

Section Coherent.
  Context {U : Type}.
  Variable lookup : str -> option (finfo U).
  Variable list_mode : str -> listing.

  (** A well-behaved mount source: a folder lists exactly the names that can be looked up in it, each a proper file name,
      and the modes listed are of the same file type as those looked up. *)
  Record coherent : Prop := {
    co_names : forall loc n, Forall proper_name loc -> In n (listing_names (list_mode (written loc))) ->
                 proper_name n /\ lookup (written (loc ++ [n])) <> None;
    co_all : forall loc n, Forall proper_name loc -> proper_name n -> lookup (written (loc ++ [n])) <> None ->
                 In n (listing_names (list_mode (written loc)));
    co_modes : forall loc n m i, Forall proper_name loc -> listed_mode (list_mode (written loc)) n m ->
                 lookup (written (loc ++ [n])) = Some i -> Z.land m 61440 = Z.land (fi_mode i) 61440
  }.
End Coherent.

(** The files in which the overlay folder keeps its own data. *)
Definition overlay_database (n : str) : Prop :=
  n = $".ratarmount.overlay.sqlite" \/ n = $".ratarmount.overlay.sqlite-journal"
  \/ n = $".ratarmount.overlay.sqlite-shm" \/ n = $".ratarmount.overlay.sqlite-wal".

(** The value of a key in a list of pairs. *)
Fixpoint value_of (d : list (str * Z)) (key : str) : option Z :=
  match d with
  | [] => None
  | (k, v) :: r => if list_eq_dec ascii_dec k key then Some v else value_of r key
  end.

(** The values several dictionaries have for one key, in order. *)
Definition values_of (ds : list (list (str * Z))) (key : str) : list Z :=
  flat_map (fun d => match value_of d key with Some v => [v] | None => [] end) ds.
