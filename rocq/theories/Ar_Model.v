(** Model of the AR parser: /repo/core/ratarmountcore/mountsource/formats/ar.py 22-196. *)
From Coq Require Import Ascii String.
From Verif Require Import PyBase PyStr PyInt FileInfo.
Local Open Scope Z_scope.

Definition nul : ascii := "000"%char.
Definition space : ascii := " "%char.
Definition newline : ascii := "010"%char.

(** The fields of tarfile.TarInfo that the parser sets. *)
Record ainfo := mkAr {
  a_offset : Z; a_offset_data : Z; a_name : str; a_mtime : Z; a_uid : Z; a_gid : Z; a_mode : Z; a_size : Z;
  a_linkname : str; a_symlink : bool }.

Definition digit_value (c : ascii) : Z := Z.of_nat (nat_of_ascii c) - 48.

Fixpoint take_digits (s : str) : str * str :=
  match s with c :: r => if is_digit c then let '(d, t) := take_digits r in (c :: d, t) else ([], s) | [] => ([], []) end.

(** parse_int, ar.py 39-57: the regular expression "[0-9]* *", then int(..., base). *)
Definition parse_int (base default : Z) (field : str) : res Z :=
  let '(digits, rest) := take_digits field in
  if forallb (fun c => char_eqb c space) rest
  then match digits with
       | [] => Ok default
       | _ => if forallb (fun c => digit_value c <? base) digits
              then Ok (fold_left (fun acc c => acc * base + digit_value c) digits 0)
              else Err ValueError
       end
  else Err ValueError.

(** bytes.rstrip(b' \x00') and bytes.strip(b'\0') *)
Fixpoint lstrip2 (a b : ascii) (s : str) : str :=
  match s with c :: r => if char_eqb c a || char_eqb c b then lstrip2 a b r else s | [] => [] end.
Definition rstrip2 (a b : ascii) (s : str) : str := rev (lstrip2 a b (rev s)).

(** table.split(b'/\n') *)
Fixpoint split_table (s : str) : list str :=
  match s with
  | [] => [[]]
  | c :: r =>
      match r with
      | d :: r' => if char_eqb c slash && char_eqb d newline then [] :: split_table r'
                   else match split_table r with p :: ps => (c :: p) :: ps | [] => [[c]] end
      | [] => [[c]]
      end
  end.

(** table.find(b'/\n', index), as what comes before the match. *)
Fixpoint until_end (s : str) : option str :=
  match s with
  | c :: r => match r with
              | d :: _ => if char_eqb c slash && char_eqb d newline then Some []
                          else option_map (cons c) (until_end r)
              | [] => None
              end
  | [] => None
  end.

Inductive names := NoNames | ByteNames (table : str) | ListNames (l : list str).

(** get_long_file_name, ar.py 83-94.  bytes.isdigit() is true for nonempty sequences of ASCII digits. *)
Definition get_long_file_name (thin : bool) (long : names) (name : str) : str :=
  match name with
  | c :: digits =>
      if char_eqb c slash && negb (str_eqb digits []) && forallb is_digit digits
      then match py_int digits with
           | Some index =>
               match long with
               | ListNames l => if negb thin then nth (Z.to_nat index) l name else name
               | ByteNames t => if thin && (index <? len t) then match until_end (zskip index t) with Some n => n | None => name end else name
               | NoNames => name
               end
           | None => name
           end
      else name
  | [] => name
  end.
Definition truthy (long : names) : bool := match long with NoNames => false | ByteNames t => negb (str_eqb t []) | ListNames l => match l with [] => false | _ => true end end.

Record header := mkHeader { h_name : str; h_mtime : Z; h_uid : Z; h_gid : Z; h_mode : Z; h_size : Z }.

(** ar.py 109-139: the fields of a header. All failures become RatarmountError. *)
Definition parse_header (h : str) : res header :=
  if str_eqb (zslice h 58 2) ["`"%char; newline]
  then match parse_int 10 0 (zslice h 16 12), parse_int 10 0 (zslice h 28 6), parse_int 10 0 (zslice h 34 6),
             parse_int 8 432 (zslice h 40 8), parse_int 10 0 (zslice h 48 10) with
       | Ok mtime, Ok uid, Ok gid, Ok mode, Ok size =>
           Ok (mkHeader (rstrip2 space nul (zslice h 0 16)) mtime uid gid (Z.lor mode S_IFREG) size)
       | _, _, _, _, _ => Err RatarmountError
       end
  else Err RatarmountError.

(** The list after reading a GNU table, ar.py 149-157 *)
Definition table_names (size : Z) (table : str) : list str :=
  let l := split_table table in
  if (size mod 2 =? 0) && match l with [] => false | _ => let e := last l [] in str_eqb e ["`"%char] || str_eqb e [newline] end
  then removelast l else l.

Definition rename (thin : bool) (long : names) (f : ainfo) : ainfo :=
  if thin
  then mkAr (a_offset f) (a_offset_data f) (a_name f) (a_mtime f) (a_uid f) (a_gid f) (a_mode f) (a_size f) (get_long_file_name thin long (a_name f)) (a_symlink f)
  else mkAr (a_offset f) (a_offset_data f) (get_long_file_name thin long (a_name f)) (a_mtime f) (a_uid f) (a_gid f) (a_mode f) (a_size f) (a_linkname f) (a_symlink f).

(** The name and its length for BSD long names, ar.py 171-182.  A negative length reads to the end or fails, and then is
    rejected in any case. *)
Definition bsd_name (data : str) (offset : Z) (name : str) : res (str * Z) :=
  if starts_with $"#1/" name
  then match py_int (skipn 3 name) with
       | Some n => if n <? 0 then Err RatarmountError
                   else let s := zslice data offset n in if len s =? n then Ok (s, n) else Err RatarmountError
       | None => Err ValueError
       end
  else Ok (name, 0).

(** The loop, ar.py 99-194; [pos] is the position of the file object. *)
Fixpoint parse_loop (fuel : nat) (data : str) (thin : bool) (pos : Z) (files : list ainfo) (long : names) : res (list ainfo) :=
  match fuel with
  | O => Err OutOfFuel
  | S f =>
      let h := zslice data pos 60 in
      if len h =? 0 then Ok files
      else if len h <? 60 then Err RatarmountError
      else
        let offset := pos + 60 in
        match parse_header h with
        | Err e => Err e
        | Ok hd =>
            let size := h_size hd in
            if str_eqb (h_name hd) $"/" then parse_loop f data thin (offset + size + size mod 2) files long
            else if str_eqb (h_name hd) $"//"
            then let table := zslice data offset size in
                 let long' := if thin then ByteNames table else ListNames (table_names size table) in
                 let pos' := offset + len table + (if thin then 0 else size mod 2) in
                 parse_loop f data thin pos' (map (rename thin long') files) long'
            else match bsd_name data offset (h_name hd) with
                 | Err e => Err e
                 | Ok (name, n) =>
                     let named := if truthy long && negb thin then get_long_file_name thin long name else name in
                     let link := if truthy long && thin then get_long_file_name thin long name else [] in
                     let mode := if thin then Z.lor (h_mode hd) S_IFLNK else h_mode hd in
                     let info := mkAr pos (offset + n) (strip nul named) (h_mtime hd) (h_uid hd) (h_gid hd) mode (size - n) link (truthy long && thin) in
                     parse_loop f data thin (if thin then offset else offset + size + size mod 2) (files ++ [info]) long
                 end
        end
  end.

(** _parse_ar_archive, ar.py 22-196 *)
Definition parse_ar (data : str) : res (list ainfo) :=
  let magic := zslice data 0 8 in
  if str_eqb magic ($"!<arch>" ++ [newline]) then parse_loop (S (length data)) data false 8 [] NoNames
  else if str_eqb magic ($"!<thin>" ++ [newline]) then parse_loop (S (length data)) data true 8 [] NoNames
  else Err RatarmountError.

(** The file mode of a row, ar.py 226-229 (info.isdir() is false). *)
Definition row_mode (f : ainfo) : Z :=
  let mode := if a_mode f =? 0 then 432 else a_mode f in
  Z.lor (Z.lor mode (if a_symlink f then S_IFLNK else mode)) S_IFREG.
