(** Model of the names under which the files embedded in an HTML document are shown: _convert_to_row and open of HTMLMountSource,
    /repo/core/ratarmountcore/mountsource/formats/html.py 445-493 and 503-506.  How the spans are found is modelled in Html_Model.v.
    Names are strings of bytes here. *)
From Coq Require Import Ascii String.
From Verif Require Import PyBase PyDict PyStr Path_Model FileInfo Index_Model Tar_Model Format_Model Factory_Model.
Local Open Scope Z_scope.

(** EmbeddedFile, html.py 346-350; the original URL may also be None, which is the same as the empty one. *)
Record embedded := mkE { e_url : str; e_start : Z; e_end : Z }.

(** os.path.splitext(p)[1] *)
Definition splitext1 (p : str) : str :=
  let name := match rsplit1 slash p with Some (_, n) => n | None => p end in
  match rsplit1 dotc name with
  | Some (a, b) => if forallb (fun c => char_eqb c dotc) a then [] else dotc :: b
  | None => []
  end.

Section Names.
  (** _open_with_span, html.py 498-504: the media type and the contents. *)
  Variable opened : Z -> Z -> res (str * list Z).
  (** mimetypes.guess_extension and the hexadecimal SHA-256 sum. *)
  Variable guess : str -> option str.
  Variable digest : list Z -> str.
  Variable transform : str -> str.
  Variable mtime : Z.

  (** html.py 460-471 *)
  Definition virtual_path (url mime : str) (contents : list Z) : str :=
    let extension := if ends_with $"/javascript" mime then $".js" else match guess mime with Some e => e | None => [] end in
    let v := if str_eqb url [] || starts_with $"data:" url then digest contents ++ extension else url in
    if str_eqb (lower_str (splitext1 v)) (lower_str extension) then v else v ++ extension.

  (** html.py 456-493: 0o777 = 511 *)
  Definition html_row (f : embedded) : res row :=
    bind (opened (e_start f) (e_end f)) (fun '(mime, contents) =>
    let '(path, name) := split_last (normpath (transform (virtual_path (e_url f) mime contents))) in
    Ok (mkRow path name (e_start f) (e_end f) (len contents) mtime (Z.lor S_IFREG 511) 0 [] 0 0 false false false 0)).

  (** html.py 450-454 *)
  Fixpoint html_rows (fs : list embedded) : res (list row) :=
    match fs with [] => Ok [] | f :: fs => bind (html_row f) (fun r => bind (html_rows fs) (fun rs => Ok (r :: rs))) end.
  Definition html_index (fs : list embedded) : res (list row) := bind (html_rows fs) (fun rs => Ok (build [Batch rs])).

  (** open, html.py 506-509 *)
  Definition html_open (i : finfo tar_data) : res (str * list Z) :=
    match fi_userdata i with td :: _ => opened (u_offsetheader td) (u_offset td) | [] => Err AssertionError end.
End Names.
