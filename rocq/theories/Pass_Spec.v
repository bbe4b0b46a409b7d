(** Specification of the choice of a password. *)
From Coq Require Import Ascii String.
From Verif Require Import PyBase PyStr Pass_Model.

(** [p] is the first of the candidates with the property. *)
Definition first_that {X} (good : X -> Prop) (candidates : list X) (p : X) : Prop :=
  exists before after, candidates = before ++ p :: after /\ good p /\ forall q, In q before -> ~ good q.
(** The first file of an archive. *)
Definition first_file {entry} (is_file : entry -> bool) (files : list entry) (f : entry) : Prop :=
  exists before after, files = before ++ f :: after /\ is_file f = true /\ forall g, In g before -> is_file g = false.
(** All files are protected alike: what opens one of them opens them all. *)
Definition alike {entry} (is_file : entry -> bool) (opens : option str -> entry -> outcome) (files : list entry) : Prop :=
  forall p f g, In f files -> In g files -> is_file f = true -> is_file g = true -> opens p f = Opened -> opens p g = Opened.
