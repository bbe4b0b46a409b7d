(** Model of core/ratarmountcore/mountsource/formats/pdf.py: which objects of a PDF document are offered as files, and what
    they read as.  The document as pypdf presents it is a parameter.

    Not modelled: pypdf itself; the index that stores the rows (see the models of the index); names made from a hash for
    objects without a name. *)
From Coq Require Import Ascii String.
From Verif Require Import PyBase PyDict PyStr.
Local Open Scope Z_scope.

(** A reference to an object: generation and number. *)
Definition pref : Type := (Z * Z).

Section Pdf.
  (** File contents. *)
  Context {A : Type}.

  (** A page: its file attachment annotations (name and stream), its images (name and data), and its text. *)
  Record page := mkPage { pg_annots : list (str * pref); pg_images : list (str * list A); pg_text : list A }.

  (** A document: the embedded files of its name tree, its pages, the cross reference table in the order of iteration, and the
      data of its streams ([None] for objects without [get_data]). *)
  Record document := mkDoc {
    d_embedded : list (str * pref); d_pages : list page; d_xref : list (pref * Z); d_stream : pref -> option (list A) }.

  (** What is found: a number, or a reference. *)
  Inductive found := AtNumber (n : Z) | AtRef (r : pref).

  (** [f"page_{page_number}_{image.name}"] and [f"page_{page_number}.txt"]; the decimal digits are a parameter. *)
  Variable digits : Z -> str.

  (** The loop over the images of a page, pdf.py 106-110.  [last] is the variable [offset], unbound at first. *)
  Fixpoint image_loop (count number index : Z) (images : list (str * list A)) (last : option Z) : list (str * found) * option Z :=
    match images with
    | [] => ([], last)
    | (name, _) :: r =>
        let offset := - ((index + 1) * count + number) in
        let '(l, last') := image_loop count number (index + 1) r (Some offset) in
        (($"page_" ++ digits number ++ $"_" ++ name, AtNumber offset) :: l, last')
    end.

  (** The loop over the pages, pdf.py 97-113 *)
  Fixpoint page_loop (count number : Z) (pages : list page) (last : option Z) : list (str * found) * option Z :=
    match pages with
    | [] => ([], last)
    | p :: r =>
        let annots := map (fun a => (fst a, AtRef (snd a))) (pg_annots p) in
        let '(images, last1) := image_loop count number 0 (pg_images p) last in
        let text := match pg_text p with [] => [] | _ => [($"page_" ++ digits number ++ $".txt", AtNumber (- number))] end in
        let '(rest, last2) := page_loop count (number + 1) r last1 in
        (annots ++ images ++ text ++ rest, last2)
    end.

  (** [reader.xref[generation][number]] *)
  Definition xref_of (d : document) (r : pref) : option Z :=
    dget (fun a b => (fst a =? fst b) && (snd a =? snd b)) (d_xref d) r.

  (** The loop over the objects found, pdf.py 127-138.  The test for numbers looks at the variable [offset], which still has the
      value some other object gave it; reading it before it is bound is an UnboundLocalError, a missing reference a KeyError. *)
  Fixpoint emit_loop (d : document) (objects : list (str * found)) (offset : option Z) (offsets : list Z) : res (list (str * Z)) :=
    match objects with
    | [] => Ok []
    | (name, AtNumber n) :: r =>
        match offset with
        | None => Err RuntimeError
        | Some o =>
            if existsb (Z.eqb o) offsets then emit_loop d r offset offsets
            else match emit_loop d r offset (o :: offsets) with Ok l => Ok ((name, n) :: l) | Err e => Err e end
        end
    | (name, AtRef p) :: r =>
        match xref_of d p with
        | None => Err KeyError
        | Some o =>
            if existsb (Z.eqb o) offsets then emit_loop d r (Some o) offsets
            else match emit_loop d r (Some o) (o :: offsets) with Ok l => Ok ((name, o) :: l) | Err e => Err e end
        end
    end.

  (** [gather_embedded_files], pdf.py 26-138 *)
  Definition gather (d : document) : res (list (str * Z)) :=
    let embedded := map (fun a => (fst a, AtRef (snd a))) (d_embedded d) in
    let '(objects, offset) := page_loop (len (d_pages d)) 0 (d_pages d) None in
    emit_loop d (embedded ++ objects) offset [].

  (** [self._objects_by_offset], pdf.py 165-169: a dictionary, so the last object with an offset counts. *)
  Definition object_at (d : document) (offset : Z) : option pref :=
    dget Z.eqb (dict_of Z.eqb (map (fun e => (snd e, fst e)) (d_xref d))) offset.

  (** [_open_with_offset], pdf.py 176-188 *)
  Definition open_with_offset (d : document) (offset : Z) : res (option (list A)) :=
    if offset <=? 0 then
      let count := len (d_pages d) in
      let number := (- offset) mod count in
      let index := (- offset) / count in
      match nth_error (d_pages d) (Z.to_nat number) with
      | None => Err IndexError
      | Some p => if index =? 0 then Ok (Some (pg_text p))
                  else match nth_error (pg_images p) (Z.to_nat (index - 1)) with
                       | Some (_, data) => Ok (Some data)
                       | None => Err IndexError
                       end
      end
    else match object_at d offset with
         | None => Err KeyError
         | Some p => Ok (d_stream d p)
         end.

  (** [open], pdf.py 221-227, with the offset from the index row of the file: an empty file is an error. *)
  Definition pdf_open (d : document) (offset : Z) : res (list A) :=
    match open_with_offset d offset with
    | Err e => Err e
    | Ok None => Err RatarmountError
    | Ok (Some []) => Err RatarmountError
    | Ok (Some data) => Ok data
    end.
End Pdf.
