(** Model of how the embedded files of a whole HTML document are gathered:
    /repo/core/ratarmountcore/mountsource/formats/html.py, HTMLDataURLParser 130-239 and gather_embedded_files 353-426.  The calls that
    Python's HTMLParser makes for the document, with the positions that getpos gives, are a parameter. *)
From Coq Require Import Ascii String.
From Verif Require Import PyBase PyStr PyDict Html_Model HtmlCss_Model.
Local Open Scope Z_scope.

(** EmbeddedFileCandidate: original_url, attribute, start and next; line and column as in LineOffset. *)
Record candidate := mkCandidate { k_url : option text; k_attribute : text; k_start : Z * Z; k_next : option (Z * Z) }.

(** What the HTMLParser calls, with its position: handle_starttag, handle_endtag or handle_decl, handle_data.  handle_entityref and
    handle_charref only collect positions that are not used; the other methods are not overridden. *)
Inductive call :=
| StartTag (at_ : Z * Z) (attrs : list (text * option text))
| EndTag (at_ : Z * Z)
| Data (at_ : Z * Z) (data : text).

Definition same_place (a b : Z * Z) : bool := (fst a =? fst b) && (snd a =? snd b).

(** _update_end_offset, html.py 222-238 *)
Definition update_end (files : list candidate) (at_ : Z * Z) : list candidate :=
  match rev files with
  | [] => files
  | c :: r =>
      match k_next c with
      | Some _ => files
      | None => if same_place at_ (k_start c) then files else rev (mkCandidate (k_url c) (k_attribute c) (k_start c) (Some at_) :: r)
      end
  end.

(** handle_starttag, handle_endtag, handle_data and handle_decl, html.py 145-213 *)
Definition handle (files : list candidate) (c : call) : list candidate :=
  match c with
  | StartTag at_ attrs => update_end files at_ ++ map (fun '(n, u) => mkCandidate (Some u) n at_ None) (tag_candidates attrs)
  | EndTag at_ => update_end files at_
  | Data at_ data =>
      update_end files at_ ++ map (fun '(u, b, e) => mkCandidate u [] (fst at_, snd at_ + b) (Some (fst at_, snd at_ + e))) (handle_data data)
  end.

(** A loop that raises the first exception. *)
Fixpoint each {X Y} (f : X -> res Y) (l : list X) : res (list Y) :=
  match l with [] => Ok [] | x :: r => bind (f x) (fun y => bind (each f r) (fun ys => Ok (y :: ys))) end.

(** sorted() of integers *)
Fixpoint put (x : Z) (l : list Z) : list Z := match l with [] => [x] | y :: r => if x <=? y then x :: l else y :: put x r end.
Definition sorted (l : list Z) : list Z := fold_right put [] l.

(** gather_embedded_files, html.py 353-426: [chunks] is what read returns one after the other, [d] the document with the sizes of its
    characters; the original URL and the span of every file. *)
Definition gather (chunks : list text) (d : document) (calls : list call) : res (list (option text * Z * Z)) :=
  let files := fold_left handle calls [] in
  let offsets := 0 :: line_offsets chunks 0 in
  let file_size := fold_left (fun n c => n + len c) chunks 0 in
  let place c := bind (to_char_offset offsets (fst (k_start c)) (snd (k_start c))) (fun s =>
                 match k_next c with
                 | Some n => bind (to_char_offset offsets (fst n) (snd n)) (fun e => Ok (s, e))
                 | None => Ok (s, file_size)
                 end) in
  bind (each place files) (fun places =>
  bind (convert_offsets d 0 0 (sorted (flat_map (fun '(s, e) => [s; e]) places))) (fun l =>
  let bytes := dict_of Z.eqb l in
  let file c :=
    bind (place c) (fun '(s, e) =>
    match dget Z.eqb bytes s, dget Z.eqb bytes e with
    | Some b, Some e => bind (embedded_span d (k_attribute c) b e) (fun r => Ok (match r with Some (b, e) => [(k_url c, b, e)] | None => [] end))
    | _, _ => Err KeyError
    end) in
  bind (each file files) (fun l => Ok (concat l)))).
