(** What a 7z archive contains. *)
From Coq Require Import Ascii String.
From Verif Require Import PyBase PyStr Path_Spec Seven_Model.
Local Open Scope Z_scope.

Definition seven_location (transform : str -> str) (i : sinfo) : location := denotes (transform (v_name i)).
(** The last entry of the archive at a location. *)
Definition last_entry (transform : str -> str) (infos : list sinfo) (loc : location) (i : sinfo) : Prop :=
  exists before after, infos = before ++ i :: after /\ seven_location transform i = loc /\ Forall (fun j => seven_location transform j <> loc) after.
Definition nothing_below (transform : str -> str) (infos : list sinfo) (loc : location) : Prop :=
  forall j rest, In j infos -> rest <> [] -> seven_location transform j <> loc ++ rest.

(** Extracting a name gives the members of that name, last the one that was stored last, in any chunks. *)
Definition extracts {A} (extract : str -> list (str * list (list A))) (name : str) (chunks : list (list A)) : Prop :=
  exists earlier, extract name = earlier ++ [(name, chunks)].

(** No chunk is longer than everything that came before it, except for the first one with bytes. *)
Definition no_longer_chunks {A} (chunks : list (list A)) : Prop :=
  forall before c after, chunks = before ++ c :: after -> concat before = [] \/ (length c <= length (concat before))%nat.
