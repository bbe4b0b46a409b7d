(** Under which names embedded files are expected. *)
From Coq Require Import Ascii String.
From Verif Require Import PyBase PyStr Path_Spec.
Local Open Scope Z_scope.

(** Letters that differ at most in their case. *)
Definition same_letter (a b : ascii) : Prop :=
  a = b \/ exists k, (k < 26)%nat /\ (a = ascii_of_nat (65 + k) /\ b = ascii_of_nat (97 + k) \/ a = ascii_of_nat (97 + k) /\ b = ascii_of_nat (65 + k)).

(** A path ends in a suffix, however it is capitalized, behind a name that does not consist of dots. *)
Definition has_suffix (path suffix : str) : Prop :=
  exists folder name e, path = folder ++ name ++ e /\ (folder = [] \/ exists f, folder = f ++ $"/") /\ ~ In slash name /\
    (exists c, In c name /\ c <> dotc) /\ Forall2 same_letter e suffix.

(** No suffix, or a dot and something without dots. *)
Definition good_suffix (suffix : str) : Prop := suffix = [] \/ exists s, suffix = $"." ++ s /\ ~ In dotc s /\ ~ In slash s.

Section Spec.
  Variable guess : str -> option str.
  Variable digest : list Z -> str.

  (** The suffix for a media type. *)
  Definition suffix_of (mime suffix : str) : Prop :=
    (exists m, mime = m ++ $"/javascript") /\ suffix = $".js" \/
    (forall m, mime <> m ++ $"/javascript") /\ (guess mime = Some suffix \/ guess mime = None /\ suffix = []).

  (** The page saver told where the file came from. *)
  Definition known (url : str) : Prop := url <> [] /\ forall r, url <> $"data:" ++ r.

  (** The path of an embedded file: where it came from, with the suffix that its type has, and otherwise the sum of its contents. *)
  Inductive titled (url suffix : str) (contents : list Z) : str -> Prop :=
  | titled_unknown : ~ known url -> titled url suffix contents (digest contents ++ suffix)
  | titled_as_it_was : known url -> suffix = [] \/ has_suffix url suffix -> titled url suffix contents url
  | titled_with_suffix : known url -> suffix <> [] -> ~ has_suffix url suffix -> titled url suffix contents (url ++ suffix).
End Spec.
