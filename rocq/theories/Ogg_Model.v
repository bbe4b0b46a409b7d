(** Model of the view on the logical streams of OGG files: /repo/core/ratarmountcore/mountsource/formats/ogg.py.

    A file is a list of bytes (numbers).  Reading a file object gives as many of the bytes asked for as there are.  Not modelled:
    OGMStreamParser and parse_ogg_comments (ogg.py 137-369), which no code reaches because the lines that would make such parsers are
    commented out (422-423), log messages, and the transform option of names. *)
From Coq Require Import Ascii String.
From Verif Require Import PyBase PyStr PyDict.
Local Open Scope Z_scope.

(** int.from_bytes(.., 'little') and the integers of struct.unpack("<..") *)
Fixpoint le_int (bytes : list Z) : Z := match bytes with [] => 0 | b :: r => b + 256 * le_int r end.

Definition sum (l : list Z) : Z := fold_right Z.add 0 l.

Fixpoint list_eqb (a b : list Z) : bool :=
  match a, b with [], [] => true | x :: a', y :: b' => (x =? y) && list_eqb a' b' | _, _ => false end.

(** bytes.startswith *)
Fixpoint bytes_start (p s : list Z) : bool :=
  match p, s with [], _ => true | a :: p', b :: s' => (a =? b) && bytes_start p' s' | _, _ => false end.

(** OGGPageHeader, ogg.py 23-31, without granule_pos and crc32, which nobody uses. *)
Record header := mkHeader { h_version : Z; h_flags : Z; h_stream : Z; h_sequence : Z; h_segments : Z }.

(** parse_ogg_page_header, ogg.py 34-42: "<BBQIIIB" of the bytes 4 to 27. *)
Definition parse_header (data : list Z) : res header :=
  if negb (list_eqb (ztake 4 data) [79; 103; 103; 83]) then Err ValueError
  else let h := mkHeader (le_int (zslice data 4 1)) (le_int (zslice data 5 1)) (le_int (zslice data 14 4))
                         (le_int (zslice data 18 4)) (le_int (zslice data 26 1)) in
       if negb (h_version h =? 0) then Err ValueError else Ok h.

(** OGGPage, 45-49, and OGGStream, 52-61 *)
Record page := mkPage { p_header : Z; p_data : Z; p_size : Z }.
Record stream := mkStream { s_media : str; s_subtype : str; s_last : Z; s_pages : list page }.

Definition codes (s : string) : list Z := map (fun c => Z.of_nat (nat_of_ascii c)) (list_ascii_of_string s).

(** The table in detect_media_type, ogg.py 66-86. *)
Definition codecs : list (str * str * list Z) :=
  [ ($"audio", $"celt", codes "CELT    "); ($"audio", $"flac", 127 :: codes "FLAC"); ($"audio", $"opus", codes "OpusHead");
    ($"audio", $"pcm", codes "PCM     "); ($"audio", $"speex", codes "Speex   "); ($"audio", $"vorbis", 1 :: codes "vorbis");
    ($"audio", $"ogm", 1 :: codes "audio"); ($"text", $"cmml", codes "CMML" ++ [0; 0; 0; 0]);
    ($"text", $"kate", 128 :: codes "kate" ++ [0; 0; 0]); ($"text", $"midi", codes "OggMIDI" ++ [0]); ($"text", $"ogm", 1 :: codes "text");
    ($"video", $"dirac", codes "BBCD" ++ [0]); ($"video", $"jng", 139 :: codes "JNG" ++ [13; 10; 26; 10]);
    ($"video", $"mng", 138 :: codes "MNG" ++ [13; 10; 26; 10]); ($"video", $"png", 137 :: codes "PNG" ++ [13; 10; 26; 10]);
    ($"video", $"theora", 128 :: codes "theora"); ($"video", $"yuv4mpeg", codes "YUV4MPEG"); ($"video", $"ogm", 1 :: codes "video") ].

(** detect_media_type, ogg.py 63-91 *)
Fixpoint detect_in (table : list (str * str * list Z)) (data : list Z) : str * str :=
  match table with
  | [] => ($"unknown", $"unknown")
  | (media, codec, magic) :: r => if bytes_start magic data then (media, codec) else detect_in r data
  end.
Definition detect (data : list Z) : str * str := detect_in codecs data.

Definition streams := @dict Z stream.

(** One round of the loop of parse_ogg, ogg.py 394-461, with the file at [pos]; None where the loop ends. *)
Definition page_step (file : list Z) (pos : Z) (open complete : streams) : res (option (Z * streams * streams)) :=
  let header_bytes := zslice file pos 27 in
  if len header_bytes <? 27 then Ok None
  else bind (parse_header header_bytes) (fun h =>
    let id := h_stream h in
    let table := zslice file (pos + 27) (h_segments h) in
    let data_size := sum table in
    let data_offset := pos + 27 + len table in
    let beginning := negb (Z.land (h_flags h) 2 =? 0) in
    if negb (Bool.eqb beginning (negb (dmem Z.eqb open id))) then Err ValueError
    else
      let open := if dmem Z.eqb open id then open
                  else dset Z.eqb open id (let '(media, sub) := detect (zslice file data_offset data_size) in mkStream media sub (-1) []) in
      match dget Z.eqb open id with
      | None => Err KeyError
      | Some s =>
          if h_sequence h <=? s_last s then Err ValueError
          else
            let s := mkStream (s_media s) (s_subtype s) (s_last s) (s_pages s ++ [mkPage pos data_offset data_size]) in
            let next := data_offset + data_size in
            if negb (Z.land (h_flags h) 4 =? 0) then Ok (Some (next, ddel Z.eqb open id, dset Z.eqb complete id s))
            else Ok (Some (next, dset Z.eqb open id s, complete))
      end).

(** The loop, and 463-465.  Every round moves on by at least 27 bytes, so that the fuel of [parse] is enough. *)
Fixpoint parse_loop (fuel : nat) (file : list Z) (pos : Z) (open complete : streams) : res streams :=
  match fuel with
  | O => Err OutOfFuel
  | S fuel =>
      match page_step file pos open complete with
      | Err e => Err e
      | Ok None => Ok (dupdate Z.eqb complete open)
      | Ok (Some (next, open, complete)) => parse_loop fuel file next open complete
      end
  end.
Definition parse (file : list Z) : res streams := parse_loop (S (length file)) file 0 [] [].

(** ogg.py 480-482 *)
Definition stencils (s : stream) : list (Z * Z) := map (fun p => (p_header p, p_data p - p_header p + p_size p)) (s_pages s).

(** [f"{stream_id:08x}"] for numbers of 32 bits, ogg.py 518 *)
Definition hex_digit (d : Z) : ascii := ascii_of_nat (Z.to_nat (if d <? 10 then 48 + d else 87 + d)).
Definition hex8 (z : Z) : str := map (fun k => hex_digit (z / 16 ^ k mod 16)) [7; 6; 5; 4; 3; 2; 1; 0].

(** _convert_to_row, ogg.py 508-545: the name and the size; and open, 551-553, whose StenciledFile reads the stencils one after the other
    (proved in Stencil_Props.v). *)
Definition extension (s : stream) : str :=
  if str_eqb (s_subtype s) $"ogm" then $".ogm"
  else if str_eqb (s_media s) $"video" then $".ogv"
  else if str_eqb (s_media s) $"audio" then $".oga" else $".ogg".
Definition name (id : Z) (s : stream) : str := s_media s ++ $"_" ++ hex8 id ++ extension s.
Definition size (s : stream) : Z := sum (map snd (stencils s)).
Definition content (file : list Z) (s : stream) : list Z := concat (map (fun '(offset, n) => zslice file offset n) (stencils s)).

(** The mount source: all rows as (name, size, content). *)
Definition listing (file : list Z) : res (list (str * Z * list Z)) :=
  bind (parse file) (fun ss => Ok (map (fun '(id, s) => (name id s, size s, content file s)) ss)).
