(** Model of the SQLAR backend, /repo/core/ratarmountcore/mountsource/formats/sqlar.py 146-363 (passwords are not modelled). *)
From Coq Require Import Ascii String.
From Verif Require Import PyBase PyDict PyStr Path_Model FileInfo.
Local Open Scope Z_scope.

(** ** GLOB of SQLite (patternCompare in func.c), for characters of one byte *)
(** The inside of a set "[...]" for the character [c]; gives whether it was seen and the pattern after the set. *)
Fixpoint glob_set (c : ascii) (p : str) (prior : option ascii) (seen : bool) : option (bool * str) :=
  match p with
  | [] => None
  | x :: r =>
    if char_eqb x "]" then Some (seen, r)
    else match r with
         | y :: r' =>
           if char_eqb x "-" && negb (char_eqb y "]") && match prior with Some _ => true | None => false end then
             let inside := match prior with
                           | Some q => Nat.leb (nat_of_ascii q) (nat_of_ascii c) && Nat.leb (nat_of_ascii c) (nat_of_ascii y)
                           | None => false
                           end in
             glob_set c r' None (seen || inside)
           else glob_set c r (Some x) (seen || char_eqb c x)
         | [] => None
         end
  end.
Definition glob_class (c : ascii) (p : str) : option (bool * str) :=
  let '(invert, p) := match p with x :: r => if char_eqb x "^" then (true, r) else (false, p) | [] => (false, p) end in
  let '(seen, p) := match p with x :: r => if char_eqb x "]" then (char_eqb c "]", r) else (false, p) | [] => (false, p) end in
  match glob_set c p None seen with Some (seen, r) => Some (xorb seen invert, r) | None => None end.
Fixpoint suffixes (s : str) : list str := s :: match s with [] => [] | _ :: r => suffixes r end.
Fixpoint glob_go (fuel : nat) (p s : str) : bool :=
  match fuel with
  | O => false
  | S n =>
    match p with
    | [] => match s with [] => true | _ => false end
    | x :: p' =>
      if char_eqb x "*" then existsb (glob_go n p') (suffixes s)
      else match s with
           | [] => false
           | c :: s' =>
             if char_eqb x "?" then glob_go n p' s'
             else if char_eqb x "[" then match glob_class c p' with Some (true, r) => glob_go n r s' | _ => false end
             else char_eqb x c && glob_go n p' s'
           end
    end
  end.
(** "s GLOB p" *)
Definition glob (p s : str) : bool := glob_go (S (length p)) p s.

(** ** The table sqlar; [s_data] is NULL for folders *)
Record srow := mkSrow { s_name : str; s_rowid : Z; s_mode : Z; s_mtime : Z; s_sz : Z; s_data : option str }.

(** posixpath.normpath(name.lstrip('/')), sqlar.py 193 and 196 *)
Definition normal_name (name : str) : str := posix_normpath (lstrip slash name).

Section Sqlar.
Variable table : list srow.
Variables now uid gid : Z.

(** self._files, sqlar.py 190-198; the second SELECT is ordered by rowid, the table is given in that order *)
Definition files : list (str * Z) :=
  if existsb (fun r => negb (str_eqb (normal_name (s_name r)) (s_name r))) table
  then dict_of str_eqb (map (fun r => (normal_name (s_name r), s_rowid r)) table)
  else [].

(** _convert_to_file_info with the columns _SQLITE_FILEINFO_COLUMNS, sqlar.py 147 and 258-269 *)
Definition sqlar_info (r : srow) : finfo Z :=
  mkInfo (Z.max 0 (s_sz r)) (s_mtime r) (s_mode r) (if s_sz r =? -1 then match s_data r with Some d => d | None => [] end else []) uid gid [s_rowid r].

(** _list_names, sqlar.py 276-292, for a dictionary that is not empty *)
Definition list_names (path : str) : list str :=
  let path := lstrip slash path in
  let path := match path with [] => [] | _ => if ends_with $"/" path then path else path ++ $"/" end in
  fold_left (fun names f =>
    let name := fst f in
    if negb (starts_with path name) then names
    else
      let rest := skipn (length path) name in
      let name := match split1 slash rest with Some (first, _) => first | None => rest end in
      if existsb (str_eqb name) names then names else names ++ [name]) files [].

Inductive listing := Names (l : list str) | Infos (l : list (str * finfo Z)).

(** "SELECT ... WHERE name GLOB pathGlob AND substr(name, len(pathGlob)) NOT GLOB '*/*'", sqlar.py 299-305 and 314-318; substr counts from 1 *)
Definition path_glob (path : str) : str := if str_eqb path $"/" then $"*" else strip slash path ++ $"/*".
Definition select_folder (path : str) : list (str * srow) :=
  let g := path_glob path in
  flat_map (fun r => let sub := skipn (length g - 1) (s_name r) in
                     if glob g (s_name r) && negb (glob $"*/*" sub) then [(sub, r)] else []) table.

(** list, sqlar.py 295-307 *)
Definition sqlar_list (path : str) : listing :=
  match files with
  | _ :: _ => Names (list_names path)
  | [] => Infos (dict_of str_eqb (map (fun '(n, r) => (n, sqlar_info r)) (select_folder path)))
  end.
(** list_mode, sqlar.py 310-320 *)
Definition sqlar_list_mode (path : str) : listing + list (str * Z) :=
  match files with
  | _ :: _ => inl (Names (list_names path))
  | [] => inr (dict_of str_eqb (map (fun '(n, r) => (n, s_mode r)) (select_folder path)))
  end.

(** lookup, sqlar.py 323-342 *)
Definition sqlar_lookup (path : str) : option (finfo Z) :=
  if str_eqb path $"/" then Some (root_info now uid gid [-1])
  else
    match files with
    | _ :: _ =>
      match dget str_eqb files (lstrip slash path) with
      | None => None
      | Some rowid => option_map sqlar_info (find (fun r => s_rowid r =? rowid) table)
      end
    | [] => option_map sqlar_info (find (fun r => str_eqb (s_name r) (strip slash path)) table)
    end.

(** open, sqlar.py 345-363: the bytes of the opened file; [inflate] is zlib through rapidgzip *)
Definition sqlar_open (inflate : str -> res str) (info : finfo Z) : res str :=
  match last (fi_userdata info) 0 with
  | rowid =>
    match find (fun r => s_rowid r =? rowid) table with
    | None => Err FileNotFound
    | Some r =>
      match s_data r with
      | None => Err TypeError
      | Some blob => if s_sz r =? len blob then Ok blob else inflate blob
      end
    end
  end.
End Sqlar.
