(** Model of the view on files embedded in HTML documents as data URLs: /repo/core/ratarmountcore/mountsource/formats/html.py.

    Characters are code points (integers).  Python's HTMLParser, which finds the tags, is not modelled: what it reports to
    handle_starttag and handle_data is a parameter.  The regular expressions are modelled as the deterministic scanners they amount to:
    in none of them can giving back characters make a failing match succeed. *)
From Coq Require Import Ascii String.
From Verif Require Import PyBase PyStr PyDict.
Local Open Scope Z_scope.

Definition text := list Z.
Definition chars (s : string) : text := map (fun c => Z.of_nat (nat_of_ascii c)) (list_ascii_of_string s).

Fixpoint text_eqb (a b : text) : bool :=
  match a, b with [], [] => true | x :: a', y :: b' => (x =? y) && text_eqb a' b' | _, _ => false end.
Fixpoint text_start (p s : text) : bool :=
  match p, s with [], _ => true | a :: p', b :: s' => (a =? b) && text_start p' s' | _, _ => false end.

(** [\s] of regular expressions on str *)
Definition is_space (c : Z) : bool :=
  ((9 <=? c) && (c <=? 13)) || ((28 <=? c) && (c <=? 32)) || (c =? 133) || (c =? 160) || (c =? 5760) || ((8192 <=? c) && (c <=? 8202)) ||
  (c =? 8232) || (c =? 8233) || (c =? 8239) || (c =? 8287) || (c =? 12288).
Definition is_letter (c : Z) : bool := ((65 <=? c) && (c <=? 90)) || ((97 <=? c) && (c <=? 122)).
(** [A-Za-z0-9.-] *)
Definition is_name_char (c : Z) : bool := is_letter c || ((48 <=? c) && (c <=? 57)) || (c =? 46) || (c =? 45).
Definition is_quote (c : Z) : bool := (c =? 39) || (c =? 34).

(** The longest start of a text whose characters are all of a kind, and the rest. *)
Fixpoint span (f : Z -> bool) (s : text) : text * text :=
  match s with
  | c :: r => if f c then let '(a, b) := span f r in (c :: a, b) else ([], s)
  | [] => ([], [])
  end.

(** HTML_NAME_PATTERN, html.py 296 *)
Definition match_name (s : text) : option (text * text) :=
  match s with c :: r => if is_letter c then Some (span is_name_char s) else None | [] => None end.

(** HTML_ATTRIBUTE_VALUE_PATTERN, html.py 316: a quoted string, or else a possibly empty run of name characters. *)
Definition match_value (s : text) : text * text :=
  match s with
  | q :: r => if is_quote q then
                match span (fun c => negb (c =? q)) r with
                | (body, q' :: rest) => (q :: body ++ [q'], rest)
                | (_, []) => ([], s)
                end
              else span is_name_char s
  | [] => ([], [])
  end.

(** HTML_ATTRIBUTE_REGEX.match(data, position), html.py 317-318, at the rest [s] of the data: the name, the span of the value if there is
    one, the new position and the new rest. *)
Definition match_attribute (s : text) (position : Z) : option (text * option (Z * Z) * Z * text) :=
  match span is_space s with
  | ([], _) => None
  | (spaces, s1) =>
      match match_name s1 with
      | None => None
      | Some (name, s2) =>
          let p2 := position + len spaces + len name in
          match span is_space s2 with
          | (spaces1, 61 :: s4) =>
              let '(spaces2, s5) := span is_space s4 in
              let '(value, s6) := match_value s5 in
              let p5 := p2 + len spaces1 + 1 + len spaces2 in
              Some (name, Some (p5, p5 + len value), p5 + len value, s6)
          | _ => Some (name, None, p2, s2)
          end
      end
  end.

(** The loop of _find_tag_attribute_spans, html.py 334-341. *)
Fixpoint find_loop (fuel : nat) (data : text) (attribute : text) (s : text) (position : Z) : res (Z * Z) :=
  match fuel with
  | O => Err OutOfFuel
  | S fuel =>
      match match_attribute s position with
      | None => Ok (0, 0)
      | Some (name, value, position, s) =>
          if text_eqb name attribute then
            let '(b, e) := match value with Some v => v | None => (-1, -1) end in
            match (if b <? 0 then nth_error (rev data) 0 else nth_error data (Z.to_nat b)) with
            | None => Err IndexError
            | Some c => Ok (if is_quote c then (b + 1, e - 1) else (b, e))
            end
          else find_loop fuel data attribute s position
      end
  end.

(** _find_tag_attribute_spans, html.py 323-343 *)
Definition find_span (data : text) (attribute : text) : res (Z * Z) :=
  match data with
  | 60 :: r => match match_name r with
               | Some (name, rest) => find_loop (S (length data)) data attribute rest (1 + len name)
               | None => Ok (0, 0)
               end
  | _ => Ok (0, 0)
  end.

(** str.find(',') *)
Fixpoint find_char (c : Z) (s : text) (i : Z) : Z := match s with [] => -1 | x :: r => if x =? c then i else find_char c r (i + 1) end.

(** handle_starttag, html.py 145-173: the attributes of a tag that are taken for embedded files, with the original URLs. *)
Definition keep_attribute (x : text * option text) : bool :=
  match snd x with Some v => text_start (chars "data:") v | None => false end || text_start (chars "data-savepage-") (fst x).
Definition candidate_of (attributes : @dict text (option text)) (x : text * option text) : list (text * text) :=
  match snd x with
  | None => []
  | Some v =>
      if negb (text_start (chars "data:") v) then []
      else let comma := find_char 44 v 0 in
           if (comma <? 0) || (len v <=? comma + 1) then []
           else [(fst x, match dget text_eqb attributes (chars "data-savepage-" ++ fst x) with Some (Some u) => u | _ => [] end)]
  end.
Definition tag_candidates (attrs : list (text * option text)) : list (text * text) :=
  let attributes := dict_of text_eqb (filter keep_attribute attrs) in flat_map (candidate_of attributes) attributes.

(** ** Positions *)

(** A document in text mode: each character with the number of bytes it takes in the file (a line feed may take two). *)
Definition document := list (Z * Z).
Definition characters (d : document) : text := map fst d.
Definition width (d : document) : Z := fold_right (fun x n => snd x + n) 0 d.

(** lineOffsets, html.py 354-369, over the chunks that are read: the offsets after each line feed. *)
Fixpoint newlines (chunk : text) (at_ : Z) : list Z :=
  match chunk with [] => [] | c :: r => if c =? 10 then (at_ + 1) :: newlines r (at_ + 1) else newlines r (at_ + 1) end.
Fixpoint line_offsets (chunks : list text) (processed : Z) : list Z :=
  match chunks with [] => [] | chunk :: r => newlines chunk processed ++ line_offsets r (processed + len chunk) end.

(** to_char_offset, html.py 371-372 *)
Definition to_char_offset (offsets : list Z) (line offset : Z) : res Z :=
  match nth_error offsets (Z.to_nat (line - 1)) with Some o => Ok (o + offset) | None => Err IndexError end.

(** The conversion of sorted character offsets into byte offsets, html.py 381-398: [rest] is what was not read yet. *)
Fixpoint convert_offsets (rest : document) (processed bytes : Z) (offsets : list Z) : res (list (Z * Z)) :=
  match offsets with
  | [] => Ok []
  | o :: os =>
      if o <? processed then Err AssertionError
      else let n := o - processed in
           let read := ztake n rest in
           let processed := processed + len read in
           let bytes := bytes + width read in
           if negb (o =? processed) then Err AssertionError
           else bind (convert_offsets (zskip n rest) processed bytes os) (fun r => Ok ((o, bytes) :: r))
  end.

(** fileobj.seek(b) on a character boundary, then read. *)
Fixpoint seek (d : document) (b : Z) : option document :=
  if b =? 0 then Some d else match d with [] => None | (_, w) :: r => if b <? w then None else seek r (b - w) end.
Definition read_at (d : document) (b n : Z) : res text :=
  match seek d b with Some r => Ok (characters (ztake n r)) | None => Err UnicodeError end.

(** An embedded file of gather_embedded_files, html.py 400-424: the span in bytes for a candidate between two byte offsets, None where the
    loop goes on without one. *)
Definition embedded_span (d : document) (attribute : text) (start end_ : Z) : res (option (Z * Z)) :=
  match attribute with
  | [] => Ok (Some (start, end_))
  | _ =>
      bind (read_at d start (end_ - start)) (fun data =>
      bind (find_span data attribute) (fun '(b, e) =>
      if e <=? b then Ok None
      else match seek d start with
           | Some r => Ok (Some (start + width (ztake b r), start + width (ztake b r) + width (ztake (e - b) (zskip b r))))
           | None => Err UnicodeError
           end))
  end.

(** ** Data URLs *)

(** Neither semicolon nor comma nor quote. *)
Definition is_plain (c : Z) : bool := negb ((c =? 59) || (c =? 44) || is_quote c).

(** Something, a slash, and something. *)
Fixpoint has_inner_slash (s : text) (after_first : bool) : bool :=
  match s with c :: (_ :: _) as r => (after_first && (c =? 47)) || has_inner_slash r true | _ => false end.

(** Any number of parameters that each begin with a semicolon. *)
Fixpoint match_parameters (fuel : nat) (s : text) : list text * text :=
  match fuel, s with
  | S fuel, 59 :: r => let '(p, rest) := span is_plain r in let '(ps, rest) := match_parameters fuel rest in (p :: ps, rest)
  | _, _ => ([], s)
  end.

(** DATA_URL_REGEX.match, html.py 117-120: the media type, the parameters and the rest behind the comma. *)
Definition match_data_url (s : text) : option (option text * list text * text) :=
  if negb (text_start (chars "data:") s) then None
  else let '(mime, rest) := span is_plain (zskip 5 s) in
       if match mime with [] => false | _ => negb (has_inner_slash mime false) end then None
       else let '(parameters, rest) := match_parameters (length rest) rest in
            match rest with 44 :: data => Some (match mime with [] => None | _ => Some mime end, parameters, data) | _ => None end.

(** binascii.a2b_base64 as base64.b64decode calls it: other characters are skipped, and the data ends at enough padding. *)
Definition b64_value (c : Z) : option Z :=
  if (65 <=? c) && (c <=? 90) then Some (c - 65) else if (97 <=? c) && (c <=? 122) then Some (c - 71)
  else if (48 <=? c) && (c <=? 57) then Some (c + 4) else if c =? 43 then Some 62 else if c =? 47 then Some 63 else None.
Fixpoint b64_loop (s : text) (quad left pads : Z) : res (list Z) :=
  match s with
  | [] => if quad =? 0 then Ok [] else Err ValueError
  | c :: r =>
      if c =? 61 then
        if (2 <=? quad) then (if 4 <=? quad + pads + 1 then Ok [] else b64_loop r quad left (pads + 1)) else b64_loop r quad left pads
      else match b64_value c with
           | None => b64_loop r quad left pads
           | Some v =>
               if quad =? 0 then b64_loop r 1 v 0
               else if quad =? 1 then bind (b64_loop r 2 (v mod 16) 0) (fun t => Ok (left * 4 + v / 16 :: t))
               else if quad =? 2 then bind (b64_loop r 3 (v mod 4) 0) (fun t => Ok (left * 16 + v / 4 :: t))
               else bind (b64_loop r 0 0 0) (fun t => Ok (left * 64 + v :: t))
           end
  end.

Section DataUrl.
  (** urllib.parse.unquote(html.unescape(..)), and str.encode with one of the encodings. *)
  Variable unescape : text -> text.
  Variable encoding : Type.
  Variables ascii_encoding utf8_encoding : encoding.
  Variable encode : encoding -> text -> res (list Z).
  (** encodings.search_function, and str.strip().lower() *)
  Variable search : text -> option encoding.
  Variable strip_lower : text -> text.

  (** The loop over the parameters, html.py 273-287. *)
  Definition choose_encoding (parameters : list text) : encoding :=
    fold_left (fun enc p =>
        let p := strip_lower p in
        if text_eqb p (chars "utf-8") || text_eqb p (chars "utf8") then utf8_encoding
        else match span (fun c => negb (c =? 61)) p with
             | (key, _ :: value) =>
                 if negb (text_eqb (strip_lower key) (chars "charset")) then enc
                 else let enc := if text_eqb (strip_lower value) (chars "us-ascii") then ascii_encoding else enc in
                      match search (strip_lower value) with Some e => e | None => enc end
             | (_, []) => enc
             end) parameters ascii_encoding.

  (** parameters.endswith(';base64') *)
  Definition is_base64 (parameters : list text) : bool := match rev parameters with p :: _ => text_eqb p (chars "base64") | [] => false end.

  (** DataURLFile.__init__, html.py 248-291: the media type and the content; nothing if it is no data URL. *)
  Definition data_url_file (url : text) : res (text * list Z) :=
    match match_data_url (unescape url) with
    | None => Ok (chars "text/plain", [])
    | Some (mime, parameters, data) =>
        bind (if is_base64 parameters then b64_loop data 0 0 0 else encode (choose_encoding parameters) data) (fun bytes =>
        Ok (match mime with Some m => m | None => chars "text/plain" end, bytes))
    end.

  (** _open_with_span, html.py 498-504 *)
  Definition open_with_span (d : document) (start end_ : Z) : res (text * list Z) :=
    if end_ <=? start then data_url_file [] else bind (read_at d start (end_ - start)) data_url_file.
End DataUrl.
