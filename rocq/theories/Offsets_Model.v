(** Model of the quick walk over the headers of a TAR archive in /repo/core/ratarmountcore/mountsource/formats/tar.py: the split
    points, the detection of GNU incremental archives, and the removal of the time stamps of such archives from member names.

    A file is its list of bytes.  File positions are not part of the state: the position is always the number of the block
    times 512, and the original position is restored by the callers. *)
From Coq Require Import Ascii String.
From Verif Require Import PyBase PyStr PyInt.
Local Open Scope Z_scope.

Definition NUL : ascii := "000"%char.
Definition newline : ascii := "010"%char.

(** [not any(block)]. *)
Definition is_zero (block : str) : bool := forallb (char_eqb NUL) block.

(** The value of a string of digits, [int(digits, base)]. *)
Definition number (base : Z) (digits : str) : Z :=
  fold_left (fun acc c => base * acc + (Z.of_nat (nat_of_ascii c) - 48)) digits 0.

(** White space that [int] ignores. *)
Definition is_space (c : ascii) : bool := existsb (char_eqb c) [" "; "009"; "010"; "011"; "012"; "013"]%char.
Fixpoint drop_space (s : str) : str := match s with c :: s' => if is_space c then drop_space s' else s | [] => [] end.
Definition is_octal (c : ascii) : bool := (48 <=? nat_of_ascii c)%nat && (nat_of_ascii c <=? 55)%nat.

(** [int(raw, 8)].  Simplification: a sign, underscores and the prefix "0o" are rejected here but accepted by Python. *)
Definition int8 (raw : str) : option Z :=
  let digits := rev (drop_space (rev (drop_space raw))) in
  match digits with [] => None | _ => if forallb is_octal digits then Some (number 8 digits) else None end.

(** The longest prefix of digits and the rest: the regular expressions of tar.py 44-45 match 1 to 20 digits followed by another
    character, which can only be the whole run of digits. *)
Fixpoint digits_of (s : str) : str * str :=
  match s with
  | c :: s' => if is_digit c then let '(d, r) := digits_of s' in (c :: d, r) else ([], s)
  | [] => ([], [])
  end.
Definition one_to_20 (d : str) : bool := (1 <=? length d)%nat && (length d <=? 20)%nat.

(** _PAX_HEADER_LENGTH_PREFIX_REGEX.match, tar.py 44: the digits in front of a space. *)
Definition match_length (s : str) : option str :=
  let '(d, r) := digits_of s in
  match r with c :: _ => if one_to_20 d && char_eqb c " " then Some d else None | [] => None end.

(** _PAX_HEADER_SIZE_KEYWORD.match, tar.py 45. *)
Definition match_size (s : str) : option str :=
  if starts_with $" size=" s then
    let '(d, r) := digits_of (skipn 6 s) in
    match r with c :: _ => if one_to_20 d && char_eqb c newline then Some d else None | [] => None end
  else None.

(** The loop of _get_pax_size, tar.py 287-304; [rest] is block[offset:]. *)
Fixpoint pax_loop (fuel : nat) (rest : str) (pax_size : Z) : Z :=
  match fuel with
  | O => pax_size
  | S fuel =>
    match rest with
    | [] => pax_size
    | c :: _ =>
      if char_eqb c NUL then pax_size
      else match match_length rest with
        | None => pax_size
        | Some d =>
          let length_ := number 10 d in
          if (length_ <? 5) || (len rest <? length_) then pax_size
          else
            let pax_size := match match_size (skipn (length d) (ztake length_ rest)) with
                            | Some s => number 10 s | None => pax_size end in
            pax_loop fuel (zskip length_ rest) pax_size
        end
    end
  end.
Definition get_pax_size (block : str) : Z := pax_loop (S (length block)) block (-1).

(** utils.py 73-74. *)
Definition ceil_div (dividend divisor : Z) : Z := - (dividend / - divisor).

Section Walk.
  Variable file : str.
  Variable ignore_zeros : bool.

  (** [fileObject.read(512 * k)] at block [n]. *)
  Definition read_blocks (n k : Z) : str := zslice file (n * 512) (k * 512).

  (** _TarFileMetadataReader.find_tar_file_offsets, tar.py 307-365: what is yielded, and the exception that ends it.  [n] is
      block_number.  Running out of fuel is [OutOfFuel]. *)
  Fixpoint find_offsets (fuel : nat) (n skip_next_blocks pax_size : Z) : list (Z * ascii) * option exn :=
    match fuel with
    | O => ([], Some OutOfFuel)
    | S fuel =>
      let header (block : str) (n : Z) :=
        (* from line 338 on; [n] blocks have been read *)
        let type_flag := nth 156 block NUL in
        let '(out, skip) := if 0 <? skip_next_blocks then ([], skip_next_blocks - 1)
                            else ([((n - 1) * 512, type_flag)], skip_next_blocks) in
        let raw_size := strip NUL (zslice block 124 12) in
        match (match raw_size with [] => Some 0 | _ => int8 raw_size end) with
        | None => (out, Some ValueError)
        | Some size =>
          let size := if (size =? 0) && (0 <? pax_size) then pax_size else size in
          let data_block_count := ceil_div size 512 in
          let pax_size := if existsb (char_eqb type_flag) ["x"; "g"; "X"]%char
                          then get_pax_size (read_blocks n data_block_count) else -1 in
          let skip := if char_eqb type_flag "0" then skip else skip + 1 in
          let '(l, e) := find_offsets fuel (n + data_block_count) skip pax_size in
          (out ++ l, e)
        end in
      let block := read_blocks n 1 in
      if len block <? 512 then ([], None)
      else if is_zero block then
        let block := read_blocks (n + 1) 1 in
        if is_zero block then if ignore_zeros then find_offsets fuel (n + 2) skip_next_blocks pax_size else ([], None)
        else if len block <? 512 then ([], None)
        else header block (n + 2)
      else header block (n + 1)
    end.
  Definition find_tar_file_offsets : list (Z * ascii) * option exn := find_offsets (S (S (length file))) 0 0 (-1).

  (** The loop of SQLiteIndexedTar._detect_gnu_incremental, tar.py 765-775.  [late i] tells whether more than three seconds have
      passed after the i-th entry.  Exceptions are swallowed. *)
  Fixpoint look_for_folder (late : nat -> bool) (i : nat) (nMaxToTry : Z) (entries : list (Z * ascii)) : bool :=
    match entries with
    | [] => false
    | (_, typeFlag) :: rest =>
      if char_eqb typeFlag "D" then true
      else let nMaxToTry := nMaxToTry - 1 in
           if (nMaxToTry <=? 0) || late i then false else look_for_folder late (S i) nMaxToTry rest
    end.
  (** _detect_gnu_incremental, tar.py 756-781.  The generator is lazy, but what it would do after the loop is left has no effect. *)
  Definition detect_gnu_incremental (late : nat -> bool) (is_file_object compressed : bool) : bool :=
    let nMaxToTry := if is_file_object || compressed then 1000 else 10000 in
    look_for_folder late 0 nMaxToTry (fst find_tar_file_offsets).

  (** _get_tar_prefix, tar.py 91-130; [None] after an exception.  [int] is applied to the bytes without NULs, so an empty size
      is an exception too. *)
  Definition extract_prefix (offset : Z) : str := zslice file (offset + 345) 155.
  Definition get_tar_prefix (offset : Z) : option str :=
    if starts_with ($"././@LongLink" ++ [NUL]) (zslice file offset 100) then
      match int8 (strip NUL (zslice file (offset + 124) 12)) with
      | None => None
      | Some size => Some (extract_prefix (offset + 512 + (size + 512 - 1) / 512 * 512))
      end
    else Some (extract_prefix offset).

  (** _fix_incremental_backup_name_prefixes, tar.py 152-191: the new name of a member whose first header is at [offset].
      Simplification: names are bytes. *)
  Definition fix_name (offset : Z) (name : str) : str :=
    match split1 slash name with
    | None => name
    | Some (prefix, rest) =>
      match get_tar_prefix offset with
      | Some ((_ :: _) as realPrefix) => if starts_with (prefix ++ [NUL]) realPrefix then rest else name
      | _ => name
      end
    end.
End Walk.

(** The flag and the name of a member in _process_tar_info, tar.py 207-213. *)
Definition process_name (file : str) (incremental : bool) (offset : Z) (type_flag : ascii) (name : str) : bool * str :=
  let incremental := if char_eqb type_flag "D" && negb incremental then true else incremental in
  (incremental, if incremental then fix_name file offset name else name).

(** The names of the members of an archive in order, as _process_serial keeps the flag in the mount source, tar.py 447-460. *)
Fixpoint process_names (file : str) (incremental : bool) (members : list (Z * ascii * str)) : list str :=
  match members with
  | [] => []
  | (offset, type_flag, name) :: rest =>
    let '(incremental, name) := process_name file incremental offset type_flag name in
    name :: process_names file incremental rest
  end.
