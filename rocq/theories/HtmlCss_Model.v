(** Model of the search for data URLs in style sheets and scripts: the regular expressions in
    /repo/core/ratarmountcore/mountsource/formats/html.py 114-125 and handle_data, 188-209.  As in Html_Model.v, the regular expressions
    are the scanners they amount to.  Python's HTMLParser hands the text of style and script elements to handle_data in one piece. *)
From Coq Require Import Ascii String.
From Verif Require Import PyBase PyStr PyDict Html_Model.
Local Open Scope Z_scope.

(** A match: the original URL, where the data URL begins and ends in it, and the length of the whole match. *)
Record found := mkFound { g_url : option text; g_start : Z; g_end : Z; g_length : Z }.

(** DATA_URL_PREFIX followed by something up to the closing character: the length of the data URL. *)
Definition closed_data_url (close : Z) (s : text) : option Z :=
  match match_data_url s with
  | None => None
  | Some (_, _, data) =>
      let '(d, rest) := span (fun c => negb (c =? close)) data in
      match d, rest with _ :: _, _ :: _ => Some (len s - len rest) | _, _ => None end
  end.

(** The part of DATA_URL_IN_CSS that begins with the opening parenthesis word, html.py 121-123. *)
Definition match_url (s : text) : option Z := if text_start (chars "url(") s then closed_data_url 41 (zskip 4 s) else None.

(** DATA_URL_IN_CSS at one place *)
Definition match_css (s : text) : option found :=
  let comment := chars "/*savepage-url=" in
  let with_comment :=
    if text_start comment s then
      let '(u, rest) := span (fun c => negb (c =? 42)) (zskip (len comment) s) in
      match u with
      | [] => None
      | _ => if text_start (chars "*/") rest then
               let before := len comment + len u + 2 in
               match match_url (zskip 2 rest) with Some n => Some (mkFound (Some u) (before + 4) (before + 4 + n) (before + 4 + n + 1)) | None => None end
             else None
      end
    else None in
  match with_comment with
  | Some m => Some m
  | None => match match_url s with Some n => Some (mkFound None 4 (4 + n) (4 + n + 1)) | None => None end
  end.

(** DATA_URL_SINGLE_QUOTE and DATA_URL_DOUBLE_QUOTE at one place, html.py 124-125 *)
Definition match_quoted (q : Z) (s : text) : option found :=
  match s with
  | c :: r => if c =? q then match closed_data_url q r with Some n => Some (mkFound None 1 (1 + n) (1 + n + 1)) | None => None end else None
  | [] => None
  end.

(** re.finditer: from the left, behind each match again. *)
Fixpoint find_iter (matcher : text -> option found) (fuel : nat) (at_ : Z) (s : text) : list (Z * found) :=
  match fuel, s with
  | S fuel, _ :: r =>
      match matcher s with
      | Some m => (at_, m) :: find_iter matcher fuel (at_ + g_length m) (zskip (g_length m) s)
      | None => find_iter matcher fuel (at_ + 1) r
      end
  | _, _ => []
  end.
Definition find_all (matcher : text -> option found) (s : text) : list (Z * found) := find_iter matcher (length s) 0 s.

(** handle_data, html.py 188-209: original URLs, and where data URLs begin and end, counted from the start of the text. *)
Definition handle_data (data : text) : list (option text * Z * Z) :=
  map (fun '(p, m) => (g_url m, p + g_start m, p + g_end m)) (find_all match_css data ++ find_all (match_quoted 39) data ++ find_all (match_quoted 34) data).
