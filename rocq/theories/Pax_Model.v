(** Model of the extended attributes that a TAR archive keeps in pax headers: /repo/core/ratarmountcore/mountsource/formats/tar.py
    217-231 (_process_tar_info) and 410-480 (_process_serial), utils.py 317-318 (decode_unpadded_base64). *)
From Coq Require Import Ascii String.
From Verif Require Import PyBase PyDict PyStr PyInt.
Local Open Scope Z_scope.

(** The value of a base64 letter, Modules/binascii.c table_a2b_base64. *)
Definition alphabet : str := $"ABCDEFGHIJKLMNOPQRSTUVWXYZabcdefghijklmnopqrstuvwxyz0123456789+/".
Fixpoint index_of (c : ascii) (l : str) : option Z :=
  match l with [] => None | x :: l => if char_eqb c x then Some 0 else option_map Z.succ (index_of c l) end.
Definition letter_value (c : ascii) : option Z := index_of c alphabet.
Definition byte (z : Z) : ascii := ascii_of_nat (Z.to_nat z).

(** base64.b64decode (binascii.a2b_base64 without strict mode): other characters are skipped; enough '=' end the text; letters
    left over at the end are an error (binascii.Error, a ValueError). *)
Fixpoint a2b (quad_pos leftchar pads : Z) (text : str) : res str :=
  match text with
  | [] => if quad_pos =? 0 then Ok [] else Err ValueError
  | c :: text =>
    if char_eqb c "=" then
      if (2 <=? quad_pos) && (4 <=? quad_pos + (pads + 1)) then Ok []
      else a2b quad_pos leftchar (if 2 <=? quad_pos then pads + 1 else pads) text
    else match letter_value c with
      | None => a2b quad_pos leftchar pads text
      | Some v =>
        let emit b r := match r with Ok s => Ok (byte b :: s) | Err e => Err e end in
        if quad_pos =? 0 then a2b 1 v 0 text
        else if quad_pos =? 1 then emit (leftchar * 4 + v / 16) (a2b 2 (v mod 16) 0 text)
        else if quad_pos =? 2 then emit (leftchar * 16 + v / 4) (a2b 3 (v mod 4) 0 text)
        else emit (leftchar * 64 + v) (a2b 0 0 0 text)
      end
  end.
Definition b64decode (text : str) : res str := a2b 0 0 0 text.

(** utils.py 317-318. *)
Definition decode_unpadded_base64 (data : str) : res str :=
  b64decode (data ++ repeat "="%char (Z.to_nat ((4 - len data mod 4) mod 4))).

(** urllib.parse.unquote_to_bytes (Lib/urllib/parse.py): "%XY" is a byte, any other '%' stays. *)
Definition hex_value (c : ascii) : option Z :=
  let n := Z.of_nat (nat_of_ascii c) in
  if (48 <=? n) && (n <=? 57) then Some (n - 48)
  else if (65 <=? n) && (n <=? 70) then Some (n - 55)
  else if (97 <=? n) && (n <=? 102) then Some (n - 87) else None.
Fixpoint unquote_to_bytes (s : str) : str :=
  match s with
  | [] => []
  | c :: rest =>
    if char_eqb c "%" then
      match rest with
      | a :: b :: rest' =>
        match hex_value a, hex_value b with
        | Some x, Some y => byte (16 * x + y) :: unquote_to_bytes rest'
        | _, _ => c :: unquote_to_bytes rest
        end
      | _ => c :: unquote_to_bytes rest
      end
    else c :: unquote_to_bytes rest
  end.

(** [key.startswith(prefix)] and [key[len(prefix):]]. *)
Definition without (prefix key : str) : option str :=
  if starts_with prefix key then Some (skipn (length prefix) key) else None.

Section Xattrs.
  (** UTF-8 decoding with the replacement character for invalid bytes; texts are their UTF-8 bytes. *)
  Variable replace_invalid : str -> str.

  (** urllib.parse.unquote.  Simplification: parts that are not ASCII are not treated separately. *)
  Definition unquote (s : str) : str := if existsb (char_eqb "%") s then replace_invalid (unquote_to_bytes s) else s.

  Definition schily : str := $"SCHILY.xattr.".
  Definition libarchive : str := $"LIBARCHIVE.xattr.".

  (** The dictionary [xattrs], tar.py 217-230.  tarfile decodes values with surrogate escapes and they are encoded the same way,
      so values are bytes here. *)
  Definition schily_xattrs (pax_headers : list (str * str)) : list (str * str) :=
    fold_left (fun d '(key, value) => match without schily key with Some name => dset str_eqb d name value | None => d end) pax_headers [].
  Fixpoint libarchive_xattrs (pax_headers : list (str * str)) (d : list (str * str)) : res (list (str * str)) :=
    match pax_headers with
    | [] => Ok d
    | (key, value) :: rest =>
      match without libarchive key with
      | None => libarchive_xattrs rest d
      | Some name =>
        match decode_unpadded_base64 value with
        | Err e => Err e
        | Ok v => libarchive_xattrs rest (dset str_eqb d (unquote name) v)
        end
      end
    end.
  Definition tar_xattrs (pax_headers : list (str * str)) : res (list (str * str)) :=
    match libarchive_xattrs pax_headers [] with
    | Err e => Err e
    | Ok d => Ok (dupdate str_eqb (schily_xattrs pax_headers) d)
    end.

  (** xattrRows, tar.py 231. *)
  Definition xattr_rows (offsetHeader : Z) (xattrs : list (str * str)) : list (Z * str * str) :=
    map (fun '(key, value) => (offsetHeader, key, value)) xattrs.

  (** The attributes and file rows that _process_serial stores (410-480), and the exception that ends it: the rows collected so
      far are stored in any case.  A member is its header position, its pax headers and its file row. *)
  Fixpoint process_serial {R : Type} (members : list (Z * list (str * str) * R)) : list R * list (Z * str * str) * option exn :=
    match members with
    | [] => ([], [], None)
    | (offsetHeader, pax_headers, row) :: rest =>
      match tar_xattrs pax_headers with
      | Err e => ([], [], Some e)
      | Ok xattrs =>
        let '(rows, xattrRows, e) := process_serial rest in (row :: rows, xattr_rows offsetHeader xattrs ++ xattrRows, e)
      end
    end.
End Xattrs.
