(** Model of the format detection in /repo/core/ratarmountcore/formats.py.
    A file object is its content [data] and its position.  Simplification: read returns all the bytes that were asked for unless
    the file ends, and seek and tell do not fail. *)
From Coq Require Import Ascii String.
From Verif Require Import PyBase PyDict PyStr Asar_Model.
Local Open Scope Z_scope.

Definition chr (n : nat) : ascii := ascii_of_nat n.
Definition ord (c : ascii) : Z := Z.of_nat (nat_of_ascii c).
Definition read (data : str) (pos n : Z) : str * Z := let chunk := zslice data pos n in (chunk, pos + len chunk).

(** A check is called at a position, returns or raises, and leaves the file at some position. *)
Definition checker := str -> Z -> res bool * Z.

(** int.from_bytes little, struct.unpack *)
Fixpoint little (s : str) : Z := match s with [] => 0 | c :: r => ord c + 256 * little r end.
(** struct.unpack('<L', fileobj.read(4)) *)
Definition read_u32 (data : str) (pos : Z) : res Z * Z :=
  let '(b, pos) := read data pos 4 in
  (if len b =? 4 then Ok (little b) else Err StructError, pos).

(** is_html_file, formats.py 106-122 *)
Definition lower (c : ascii) : ascii := if (65 <=? ord c) && (ord c <=? 90) then chr (nat_of_ascii c + 32) else c.
(** \s in a bytes pattern *)
Definition is_space (c : ascii) : bool := (ord c =? 32) || ((9 <=? ord c) && (ord c <=? 13)).
Definition ends_tag (s : str) : bool := match s with c :: _ => is_space c || char_eqb c ">" | [] => false end.
Fixpoint skip_spaces (s : str) : str := match s with c :: r => if is_space c then skip_spaces r else s | [] => [] end.
Definition after (p s : str) : option str := if starts_with p s then Some (skipn (length p) s) else None.
(** HTML_REGEX, formats.py 101, at the start of [s] *)
Definition tag_at (s : str) : bool :=
  existsb (fun w => match after ($"<" ++ w) s with Some r => ends_tag r | None => false end)
    [$"head"; $"title"; $"html"; $"script"; $"style"; $"table"] ||
  match after $"<a" s with
  | Some (c :: r) => is_space c && match after $"href" (skip_spaces r) with Some r => ends_tag r | None => false end
  | _ => false
  end.
Fixpoint search (f : str -> bool) (s : str) : bool := f s || match s with [] => false | _ :: r => search f r end.
Definition is_html_file : checker := fun data offset =>
  let '(chunk, _) := read data offset 512 in
  let chunk := map lower chunk in
  (Ok (if existsb (char_eqb zero) chunk then false
       else search (starts_with $"<!doctype html") chunk || search tag_at chunk), offset).

(** is_asar, formats.py 174-186 *)
Definition is_asar : checker := fun data offset =>
  (Ok (match find_asar_header (zskip offset data) with Ok _ => true | Err _ => false end), offset).

(** is_avi, formats.py 189-203 *)
Definition is_avi : checker := fun data offset =>
  let '(header, _) := read data offset 12 in
  (Ok (if len header <? 12 then false
       else if negb (str_eqb (zslice header 0 4) $"RIFF") then false
       else str_eqb (zslice header 8 4) $"AVI "), offset).

(** is_squashfs, formats.py 206-236 *)
Definition is_squashfs : checker := fun data offset =>
  let '(magic, pos) := read data offset 4 in
  (Ok (if negb (str_eqb magic $"hsqs") then false
       else
         let '(a, pos) := read data pos 16 in
         if negb (len a =? 16) then false
         else
           let blockSize := little (zslice a 8 4) in
           let '(b, pos) := read data pos 12 in
           if negb (len b =? 12) then false
           else
             let compressor := little (zslice b 0 2) in
             let blockSizeLog2 := little (zslice b 2 2) in
             let major := little (zslice b 8 2) in
             let minor := little (zslice b 10 2) in
             if (blockSizeLog2 <? 12) || (20 <? blockSizeLog2) || negb (2 ^ blockSizeLog2 =? blockSize) then false
             else if negb (major =? 4) || negb (minor =? 0) then false
             else if 6 <? compressor then false
             else true), offset).

(** data.find(p, start) *)
Fixpoint find_at (p s : str) (i : Z) : Z :=
  if starts_with p s then i else match s with [] => -1 | _ :: r => find_at p r (i + 1) end.
Definition find (data p : str) (start : Z) : Z := if len data <? start then -1 else find_at p (zskip start data) start.

(** find_squashfs_offset, formats.py 239-262 *)
Fixpoint squashfs_loop (fuel : nat) (file data : str) (magicOffset : Z) : res Z :=
  match fuel with
  | O => Err OutOfFuel
  | S n =>
    let magicOffset := find data $"hsqs" (magicOffset + 1) in
    if (magicOffset <? 0) || (len data <=? magicOffset) then Ok (-1)
    else match fst (is_squashfs file magicOffset) with
         | Ok true => Ok magicOffset
         | Ok false => squashfs_loop n file data magicOffset
         | Err e => Err e
         end
  end.
Definition find_squashfs_offset (file : str) (oldOffset maxSkip : Z) : res Z * Z :=
  match fst (is_squashfs file oldOffset) with
  | Err e => (Err e, oldOffset)
  | Ok true => (Ok 0, oldOffset)
  | Ok false =>
    let '(data, _) := read file oldOffset (maxSkip + 4) in
    (squashfs_loop (S (length data)) file data 0, oldOffset)
  end.
Definition check_squashfs : checker := fun data pos =>
  match find_squashfs_offset data pos 1048576 with
  | (Ok o, pos) => (Ok (0 <=? o), pos)
  | (Err e, pos) => (Err e, pos)
  end.

(** _is_cpio, formats.py 265-270 *)
Definition is_cpio : checker := fun data pos =>
  let '(firstBytes, pos) := read data pos 5 in
  (Ok (str_eqb firstBytes $"07070" || str_eqb (zslice firstBytes 0 2) [chr 113; chr 199] || str_eqb (zslice firstBytes 0 2) [chr 199; chr 113]), pos).

(** _is_iso9660, formats.py 273-281 *)
Definition is_iso9660 : checker := fun data pos =>
  let offset := 32 * 1024 + 1 in
  let udfOffset := 38 * 1024 + 1 in
  let '(buffer, pos) := read data pos (Z.max offset udfOffset + 4) in
  (Ok (str_eqb (zslice buffer offset 5) $"CD001" || str_eqb (zslice buffer udfOffset 4) $"NSR0"), pos).

(** _check_zlib_header, formats.py 284-297 *)
Definition check_zlib_header : checker := fun data pos =>
  let '(header, pos) := read data pos 2 in
  (match header with
   | c :: f :: _ =>
     let cmf := ord c in
     if negb (Z.land cmf 15 =? 8) then Ok false
     else if 7 <? Z.shiftr cmf 4 then Ok false
     else
       let flags := ord f in
       if negb ((Z.shiftl cmf 8 + flags) mod 31 =? 0) then Ok false
       else Ok (negb (negb (Z.land (Z.shiftr flags 5) 1 =? 0)))
   | _ => Ok false
   end, pos).

(** _is_bzip2, formats.py 323-324; the second read is only done if the first comparison succeeds *)
Definition is_bzip2 : checker := fun data pos =>
  let '(a, pos) := read data pos 4 in
  if str_eqb (zslice a 0 3) $"BZh" then
    let '(b, pos) := read data pos 6 in
    (Ok (str_eqb b (map chr [49; 65; 89; 38; 83; 89]%nat)), pos)
  else (Ok false, pos).

(** _check_lz4_header and _check_zstandard_header, formats.py 327-341 and 344-357: the same loop with another last number. *)
Fixpoint skip_frames (fuel : nat) (data : str) (pos magic : Z) : res Z * Z :=
  match fuel with
  | O => (Err OutOfFuel, pos)
  | S n =>
    if Z.land magic 4294967280 =? 407710288 then
      match read_u32 data pos with
      | (Err e, pos) => (Err e, pos)
      | (Ok frame_size, pos) =>
        match read_u32 data (pos + frame_size) with
        | (Err e, pos) => (Err e, pos)
        | (Ok magic, pos) => skip_frames n data pos magic
        end
      end
    else (Ok magic, pos)
  end.
Definition check_frames (last : Z) : checker := fun data pos =>
  match read_u32 data pos with
  | (Err e, pos) => (Ok false, pos)
  | (Ok magic, pos) =>
    match skip_frames (S (length data)) data pos magic with
    | (Ok magic, pos) => (Ok (magic =? last), pos)
    | (Err StructError, pos) => (Ok false, pos)
    | (Err e, pos) => (Err e, pos)
    end
  end.
Definition check_lz4_header : checker := check_frames 407708164.
Definition check_zstandard_header : checker := check_frames 4247762216.

(** _check_encrypted_sqlar, formats.py 360-363 *)
Definition check_encrypted_sqlar : checker := fun data pos =>
  let '(salt, pos) := read data pos 16 in (Ok (16 <=? len salt), pos).

(** ** FileFormatInfo, formats.py 366-383, without the extensions *)
Record format := mkFormat { magicBytes : option str; checkHeader : option checker }.

(** might_be_format, formats.py 607-620 *)
Definition truthy (s : option str) : bool := match s with Some (_ :: _) => true | _ => false end.
Definition might_be_format (data : str) (oldOffset : Z) (info : format) : res bool * Z :=
  let '(matches, pos) :=
    match magicBytes info with
    | Some (c :: r) => let '(b, pos) := read data oldOffset (len (c :: r)) in (str_eqb b (c :: r), pos)
    | _ => (true, oldOffset)
    end in
  if negb matches then (Ok false, oldOffset)
  else match checkHeader info with
       | Some check => let '(r, _) := check data oldOffset in (r, oldOffset)
       | None => (Ok (truthy (magicBytes info)), oldOffset)
       end.

(** _MAGIC_BYTES_TO_FORMATS and _FORMATS_WITHOUT_MAGIC_BYTES, formats.py 591-592; formats are identified by their numbers *)
Definition tables := (list (str * list Z) * list Z)%type.
(** recompute_cached_magic_bytes, formats.py 592-601 *)
Definition add_format (t : tables) (f : Z * format) : tables :=
  let '(by_magic, without) := t in
  let '(fid, info) := f in
  match magicBytes info with
  | Some (a :: b :: _) =>
    let two := [a; b] in
    let by_magic := if dmem str_eqb by_magic two then by_magic else dset str_eqb by_magic two [] in
    (match dget str_eqb by_magic two with Some l => dset str_eqb by_magic two (l ++ [fid]) | None => by_magic end, without)
  | _ => (by_magic, without ++ [fid])
  end.
Definition recompute_cached_magic_bytes (t : tables) (formats : list (Z * format)) : tables := fold_left add_format formats t.

(** detect_formats, formats.py 623-635; the set comprehension raises at the first check that raises *)
Fixpoint test_formats (formats : list (Z * format)) (data : str) (pos : Z) (fids : list Z) : res (list Z) * Z :=
  match fids with
  | [] => (Ok [], pos)
  | fid :: r =>
    match dget Z.eqb formats fid with
    | None => (Err KeyError, pos)
    | Some info =>
      match might_be_format data pos info with
      | (Err e, pos) => (Err e, pos)
      | (Ok found, pos) =>
        match test_formats formats data pos r with
        | (Err e, pos) => (Err e, pos)
        | (Ok l, pos) => (Ok (if found then fid :: l else l), pos)
        end
      end
    end
  end.
Definition detect_formats (formats : list (Z * format)) (t : tables) (data : str) (oldOffset : Z) : res (list Z) * Z :=
  let '(firstTwoBytes, pos) := read data oldOffset 2 in
  if len firstTwoBytes <? 2 then (Ok [], oldOffset)
  else
    let formatsToTest := match dget str_eqb (fst t) firstTwoBytes with Some l => l | None => [] end in
    test_formats formats data oldOffset (formatsToTest ++ snd t).

(** ** FILE_FORMATS, formats.py 386-477 and 573-577, without sqlcipher3; the checks of other libraries are parameters *)
Section Table.
  Variables is_tar is_zipfile check_deflate : checker.
  Definition bytes (l : list nat) : str := map chr l.
  Definition file_formats : list (Z * format) := [
    (257, mkFormat (Some (bytes [55; 122; 188; 175; 39; 28]%nat)) None);
    (258, mkFormat (Some ($"Rar!" ++ bytes [26; 7]%nat)) None);
    (259, mkFormat None (Some is_zipfile));
    (260, mkFormat (Some ($"SQLite format 3" ++ [zero])) None);
    (261, mkFormat (Some $"MSCF") None);
    (262, mkFormat (Some ($"<aiaff>" ++ [chr 10])) None);
    (263, mkFormat (Some ($"!<arch>" ++ [chr 10])) None);
    (272, mkFormat (Some ($"!<thin>" ++ [chr 10])) None);
    (264, mkFormat (Some $"xar!") None);
    (265, mkFormat None (Some is_cpio));
    (513, mkFormat None (Some is_tar));
    (514, mkFormat (Some (bytes [4; 0; 0; 0]%nat)) (Some is_asar));
    (769, mkFormat None (Some check_squashfs));
    (4097, mkFormat (Some $"BZh") (Some is_bzip2));
    (4098, mkFormat (Some (bytes [31; 139]%nat)) None);
    (4099, mkFormat (Some (bytes [253; 55; 122; 88; 90; 0]%nat)) None);
    (4100, mkFormat None (Some check_zstandard_header));
    (4101, mkFormat None (Some check_zlib_header));
    (4104, mkFormat None (Some check_deflate));
    (4129, mkFormat (Some ($"GRZipII" ++ bytes [0; 2; 4; 58; 41]%nat)) None);
    (4130, mkFormat (Some ($"LRZI" ++ [zero])) None);
    (4102, mkFormat None (Some check_lz4_header));
    (4131, mkFormat (Some ($"LZIP" ++ [chr 1])) None);
    (4103, mkFormat (Some (bytes [93; 0; 0]%nat)) None);
    (4132, mkFormat (Some (bytes [137; 76; 90; 79; 0; 13; 10; 26; 10]%nat)) None);
    (4133, mkFormat (Some (bytes [237; 171; 238; 219]%nat)) None);
    (4134, mkFormat (Some $"begin ") None);
    (4135, mkFormat (Some (bytes [31; 157]%nat)) None);
    (770, mkFormat None (Some is_iso9660));
    (1025, mkFormat None None);
    (1026, mkFormat None None);
    (2306, mkFormat (Some $"WARC/1.") None);
    (2307, mkFormat None (Some is_html_file));
    (2308, mkFormat (Some $"%PDF-") None);
    (2305, mkFormat (Some ($"SQLite format 3" ++ [zero])) None);
    (4353, mkFormat (Some $"RIFF") (Some is_avi));
    (4354, mkFormat (Some (bytes [26; 69; 223; 163]%nat)) None);
    (4355, mkFormat (Some $"ftypMSNV") None);
    (4356, mkFormat (Some $".RMF") None);
    (4357, mkFormat (Some ($"OggS" ++ [zero])) None)].
End Table.
