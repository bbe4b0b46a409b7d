(** Specification of documents for C132: an HTML document as the pieces it consists of, and what Python's HTMLParser calls for them. *)
From Coq Require Import Ascii String.
From Verif Require Import PyBase Html_Spec HtmlDoc_Model.
Local Open Scope Z_scope.

(** A start tag, closed with a slash or not; text; an end tag or declaration; and something, like a comment, for which no method of the
    program is called. *)
Inductive piece :=
| Tag (name : list Z) (attrs : list attribute) (tail : list Z) (closed : bool)
| Text (data : list Z)
| Ending (s : list Z)
| Silent (s : list Z).

Definition written (p : piece) : list Z :=
  match p with Tag name attrs tail _ => write_tag name attrs tail | Text s | Ending s | Silent s => s end.
Definition text_of (ps : list piece) : list Z := concat (map written ps).

(** Tags with quoted values and lower case attribute names, one each. *)
Definition piece_ok (p : piece) : Prop :=
  match p with
  | Tag name attrs tail _ => name_ok name /\ Forall attribute_ok attrs /\ tail_ok tail /\ NoDup (map a_name attrs) /\
                             (forall a c, In a attrs -> In c (a_name a) -> ~ upper_letter c)
  | _ => True
  end.

(** The calls for the pieces behind the text [before]: each at the line and column where the piece begins. *)
Fixpoint calls (before : list Z) (ps : list piece) : list call :=
  match ps with
  | [] => []
  | p :: r =>
      let at_ := position before 1 0 in
      match p with
      | Tag _ attrs _ closed => StartTag at_ (map reported attrs) :: (if closed then [EndTag at_] else [])
      | Text s => [Data at_ s]
      | Ending _ => [EndTag at_]
      | Silent _ => []
      end ++ calls (before ++ written p) r
  end.

(** The bytes from [b] to [e] of the document are the characters [v] behind the characters [before]. *)
Definition bytes_of (d : list (Z * Z)) : Z := fold_right (fun x n => snd x + n) 0 d.
Definition holds (d : list (Z * Z)) (before : list Z) (b e : Z) (v : list Z) : Prop :=
  exists x url y, d = x ++ url ++ y /\ map fst x = before /\ map fst url = v /\ b = bytes_of x /\ e = bytes_of (x ++ url).

(** The original URL that a page saver left for the attribute [n]. *)
Definition original (attrs : list attribute) (n u : list Z) : Prop :=
  (exists a, In a attrs /\ a_name a = letters "data-savepage-" ++ n /\ value_of a = Some u) \/
  (u = [] /\ forall a v, In a attrs -> a_name a = letters "data-savepage-" ++ n -> value_of a <> Some v).
