(** Model of mounted PDF documents: [PDFMountSource], /repo/core/ratarmountcore/mountsource/formats/pdf.py 163-227.  What is found in a
    document is in Pdf_Model.v, the index in Index_Model.v.  [sha] is sha256(...).hexdigest(), [transform] the option of that name, and
    [mtime] the time of the file.  Not modelled: that the index is kept in memory. *)
From Coq Require Import Ascii String.
From Verif Require Import PyBase PyDict PyStr Path_Model FileInfo Index_Model Tar_Model Pdf_Model.
Local Open Scope Z_scope.

Section PdfMount.
  Context {A : Type}.
  Variable digits : Z -> str.
  Variable sha : list A -> str.
  Variable transform : str -> str.
  Variable mtime : Z.

  (** [_convert_to_row], pdf.py 190-219, with the data already read: [None] and no bytes are the same to it. *)
  Definition pdf_row (f : (str * Z) * option (list A)) : row :=
    let '((name, offset), data) := f in
    let name := match name, data with [], Some (x :: r) => sha (x :: r) | _, _ => name end in
    let '(path, name) := split_last (normpath (transform name)) in
    let size := match data with Some l => len l | None => 0 end in
    mkRow path name offset 0 size mtime 33188 0 [] 0 0 false false false 0.

  (** The comprehension in [__init__], pdf.py 170-174: reading may raise. *)
  Fixpoint read_all (d : @document A) (files : list (str * Z)) : res (list ((str * Z) * option (list A))) :=
    match files with
    | [] => Ok []
    | f :: r => match open_with_offset d (snd f) with
                | Err e => Err e
                | Ok data => match read_all d r with Ok l => Ok ((f, data) :: l) | Err e => Err e end
                end
    end.
  Definition pdf_index (d : @document A) : res (list row) :=
    match gather digits d with
    | Err e => Err e
    | Ok files => match read_all d files with Ok l => Ok (build [Batch (map pdf_row l)]) | Err e => Err e end
    end.

  (** [open], pdf.py 221-227 *)
  Definition pdf_open_info (d : @document A) (i : finfo tar_data) : res (list A) :=
    match fi_userdata i with td :: _ => pdf_open d (u_offsetheader td) | [] => Err AssertionError end.
End PdfMount.
