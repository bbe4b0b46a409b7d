(** Model of the ASAR backend: /repo/core/ratarmountcore/mountsource/formats/asar.py 63-180 and find_asar_header in
    /repo/core/ratarmountcore/formats.py 135-171. *)
From Coq Require Import Ascii String.
From Verif Require Import PyBase PyStr PyInt Path_Model FileInfo Index_Model.
Local Open Scope Z_scope.

(** A JSON value where a number is expected: a string or an integer (no others are modelled). *)
Inductive jvalue := JStr (s : str) | JNum (z : Z).

(** A JSON object as far as it is used: the keys "offset", "size" and "files".  Other keys ("executable", "link", ...)
    are ignored by the code. A JSON dictionary keeps the order of its keys. *)
Inductive entry := Entry (offset size : option jvalue) (files : option (list (str * entry))).
Definition e_offset (e : entry) := let 'Entry o _ _ := e in o.
Definition e_size (e : entry) := let 'Entry _ s _ := e in s.
Definition e_files (e : entry) := let 'Entry _ _ f := e in f.
Definition is_some {A} (o : option A) : bool := match o with Some _ => true | None => false end.

(** int(entry.get(key, "0")) *)
Definition int_of (v : option jvalue) : option Z :=
  match v with None => Some 0 | Some (JNum z) => Some z | Some (JStr s) => py_int s end.

Section Convert.
  (** The transformation of paths that the options ask for (the identity by default). *)
  Variable transform : str -> str.

  (** _convert_to_row, asar.py 97-128; 511 = 0o777 *)
  Definition convert_to_row (fullPath : str) (e : entry) (dataOffset : Z) : res row :=
    match rsplit1 slash (normpath (transform fullPath)) with
    | None => Err ValueError
    | Some (path, name) =>
        let isFile := is_some (e_offset e) && is_some (e_size e) in
        let isDirectory := is_some (e_files e) in
        if eqb isFile isDirectory then Err AssertionError
        else match int_of (e_offset e), int_of (e_size e) with
             | Some o, Some s =>
                 Ok (mkRow path name 0 (dataOffset + o) s 0 (Z.lor 511 (if isDirectory then S_IFDIR else S_IFREG)) 0 [] 0 0 false false false 0)
             | _, _ => Err ValueError
             end
    end.

  (** [convert for ... in children] *)
  Fixpoint convert_all (children : list (str * entry)) (dataOffset : Z) : res (list row) :=
    match children with
    | [] => Ok []
    | (path, e) :: r =>
        match convert_to_row path e dataOffset with
        | Err x => Err x
        | Ok row => match convert_all r dataOffset with Err x => Err x | Ok rows => Ok (row :: rows) end
        end
    end.

  (** The loop of _create_index, asar.py 139-154.  The list toProcess is kept with its end first; [calls] are the arguments
      of the calls of set_file_infos so far. *)
  Fixpoint index_loop (fuel : nat) (dataOffset : Z) (toProcess : list (str * entry)) (fileInfos : list row) (calls : list (list row)) : res (list (list row)) :=
    match fuel with
    | O => Err OutOfFuel
    | S f =>
        match toProcess with
        | [] => Ok (if match fileInfos with [] => false | _ => true end then calls ++ [fileInfos] else calls)
        | (prefix, e) :: rest =>
            match e_files e with
            | None => Err KeyError
            | Some fs =>
                let children := map (fun '(path, nested) => (prefix ++ $"/" ++ path, nested)) fs in
                match convert_all children dataOffset with
                | Err x => Err x
                | Ok rows =>
                    let fileInfos := fileInfos ++ rows in
                    let toProcess := rev (filter (fun c => is_some (e_files (snd c))) children) ++ rest in
                    if 1000 <? len fileInfos then index_loop f dataOffset toProcess [] (calls ++ [fileInfos])
                    else index_loop f dataOffset toProcess fileInfos calls
                end
            end
        end
    end.

  Fixpoint count (e : entry) : nat :=
    match e with
    | Entry _ _ None => 1
    | Entry _ _ (Some fs) => S (fold_right (fun p n => (count (snd p) + n)%nat) O fs)
    end.

  (** _create_index, asar.py 130-154.  The fuel is the number of entries. *)
  Definition create_index (header : entry) (dataOffset : Z) : res (list (list row)) :=
    match convert_to_row $"/" header dataOffset with
    | Err x => Err x
    | Ok row => index_loop (S (count header)) dataOffset [($"/", header)] [row] []
    end.
End Convert.

(** struct.unpack('<L', ...) *)
Definition u32 (s : str) : Z :=
  fold_right (fun c acc => Z.of_nat (nat_of_ascii c) + 256 * acc) 0 s.

(** find_asar_header, formats.py 135-171.  [data] is the file from the current position. *)
Definition find_asar_header (data : str) : res (Z * Z * Z) :=
  let b := zslice data 0 16 in
  if negb (len b =? 16) then Err StructError
  else
    let a1 := u32 (zslice b 0 4) in
    let a2 := u32 (zslice b 4 4) in
    let a3 := u32 (zslice b 8 4) in
    let a4 := u32 (zslice b 12 4) in
    if negb (a1 =? 4) then Err ValueError
    else if negb (a2 =? a3 + 4) then Err ValueError
    else
      let padding := (4 - a4 mod 4) mod 4 in
      if negb (a3 =? a4 + padding + 4) then Err ValueError
      else Ok (16, a4, 16 + a4 + padding).

Section Open.
  (** json.load *)
  Variable load : str -> option entry.
  Variable transform : str -> str.

  (** The constructor, asar.py 64-95: the calls of set_file_infos for a new index.
      Simplification: a JSON syntax error is a ValueError (json.JSONDecodeError is one). *)
  Definition open_asar (data : str) : res (list (list row)) :=
    match find_asar_header data with
    | Err x => Err x
    | Ok (headerOffset, headerSize, dataOffset) =>
        match zslice data (headerOffset + headerSize - 1) 1 with
        | [] => Err ValueError
        | _ => match load (zslice data headerOffset headerSize) with
               | None => Err ValueError
               | Some header => create_index transform header dataOffset
               end
        end
    end.
End Open.
