(** How data URLs are written in style sheets and scripts. *)
From Coq Require Import Ascii String.
From Verif Require Import PyBase Html_Spec.
Local Open Scope Z_scope.

(** A data URL with content: perhaps a media type, parameters, a comma and the data. *)
Definition data_url (u : list Z) : Prop :=
  exists mime ps data, u = letters "data:" ++ mime ++ write_parameters ps ++ 44 :: data /\ (mime = [] \/ media_type mime) /\ Forall (Forall plain_char) ps /\ data <> [].

(** [needle] is somewhere in [s]. *)
Definition occurs (needle s : list Z) : Prop := exists a b, s = a ++ needle ++ b.

(** A style sheet: links to data URLs, each behind some text and perhaps with a comment that tells where the file came from, then text. *)
Definition opening (original : option (list Z)) : list Z :=
  match original with Some o => letters "/*savepage-url=" ++ o ++ letters "*/url(" | None => letters "url(" end.
Fixpoint write_sheet (links : list (list Z * option (list Z) * list Z)) (last : list Z) : list Z :=
  match links with [] => last | (t, o, u) :: r => t ++ opening o ++ u ++ [41] ++ write_sheet r last end.

Definition sheet_text (t : list Z) : Prop := ~ occurs (letters "url(") t /\ ~ occurs (letters "/*savepage-url=") t.
Definition sheet_link (l : list Z * option (list Z) * list Z) : Prop :=
  let '(t, o, u) := l in sheet_text t /\ data_url u /\ ~ In 41 u /\ match o with Some o => o <> [] /\ ~ In 42 o | None => True end.

(** Where the data URLs are. *)
Fixpoint places (at_ : Z) (links : list (list Z * option (list Z) * list Z)) : list (option (list Z) * Z * Z) :=
  match links with
  | [] => []
  | (t, o, u) :: r =>
      let b := at_ + Z.of_nat (List.length t) + Z.of_nat (List.length (opening o)) in let e := b + Z.of_nat (List.length u) in
      (o, b, e) :: places (e + 1) r
  end.

(** Text with data URLs in quotes. *)
Fixpoint write_quoted (q : Z) (links : list (list Z * list Z)) (last : list Z) : list Z :=
  match links with [] => last | (t, u) :: r => t ++ [q] ++ u ++ [q] ++ write_quoted q r last end.
Fixpoint quoted_places (at_ : Z) (links : list (list Z * list Z)) : list (option (list Z) * Z * Z) :=
  match links with
  | [] => []
  | (t, u) :: r => let b := at_ + Z.of_nat (List.length t) + 1 in let e := b + Z.of_nat (List.length u) in (None, b, e) :: quoted_places (e + 1) r
  end.
