(** Specification of OGG files, after RFC 3533: a sequence of pages, each of which belongs to the logical stream with its serial number. *)
From Coq Require Import Ascii String.
From Verif Require Import PyBase PyStr.
Local Open Scope Z_scope.

Record opage := mkOPage {
  o_first : bool; o_last : bool; o_continued : bool;  (* the flags *)
  o_granule : list Z; o_serial : Z; o_number : Z; o_crc : list Z;
  o_lacing : list Z; o_body : list Z }.

Definition bytes4 (z : Z) : list Z := [z mod 256; z / 256 mod 256; z / 65536 mod 256; z / 16777216 mod 256].
Definition bit (b : bool) (v : Z) : Z := if b then v else 0.

Definition encode (p : opage) : list Z :=
  [79; 103; 103; 83; 0; bit (o_continued p) 1 + bit (o_first p) 2 + bit (o_last p) 4] ++ o_granule p ++ bytes4 (o_serial p) ++ bytes4 (o_number p) ++
  o_crc p ++ [Z.of_nat (List.length (o_lacing p))] ++ o_lacing p ++ o_body p.

Definition byte (b : Z) : Prop := 0 <= b < 256.
Definition proper (p : opage) : Prop :=
  List.length (o_granule p) = 8%nat /\ List.length (o_crc p) = 4%nat /\ 0 <= o_serial p < 2 ^ 32 /\ 0 <= o_number p < 2 ^ 32 /\
  (List.length (o_lacing p) < 256)%nat /\ Forall byte (o_lacing p) /\ fold_right Z.add 0 (o_lacing p) = Z.of_nat (List.length (o_body p)).

(** The pages of one logical stream. *)
Definition of_stream (id : Z) (ps : list opage) : list opage := filter (fun p => o_serial p =? id) ps.
Definition bytes_of (ps : list opage) : list Z := concat (map encode ps).

(** Every page has the first-page flag exactly if no earlier page is of its stream, and comes before its stream was ended. *)
Definition valid (ps : list opage) : Prop := forall a p b, ps = a ++ p :: b ->
  (o_first p = true <-> of_stream (o_serial p) a = []) /\ (forall q, In q (of_stream (o_serial p) a) -> o_last q = false).

(** Names of streams: the kind, the serial number as 8 hexadecimal digits, and an extension, after the first bytes of the first page. *)
Definition hex_value_of (c : ascii) : Z := let n := Z.of_nat (nat_of_ascii c) in if n <? 58 then n - 48 else n - 87.
Definition hex_value (s : str) : Z := fold_left (fun v c => v * 16 + hex_value_of c) s 0.

Definition text (s : string) : list Z := map (fun c => Z.of_nat (nat_of_ascii c)) (list_ascii_of_string s).
Definition known : list (list Z * str * str) :=
  [ (text "OpusHead", $"audio", $".oga"); (1 :: text "vorbis", $"audio", $".oga"); (127 :: text "FLAC", $"audio", $".oga");
    (text "Speex   ", $"audio", $".oga"); (text "PCM     ", $"audio", $".oga"); (text "CELT    ", $"audio", $".oga");
    (128 :: text "theora", $"video", $".ogv"); (text "BBCD" ++ [0], $"video", $".ogv"); (text "YUV4MPEG", $"video", $".ogv");
    (139 :: text "JNG" ++ [13; 10; 26; 10], $"video", $".ogv"); (138 :: text "MNG" ++ [13; 10; 26; 10], $"video", $".ogv");
    (137 :: text "PNG" ++ [13; 10; 26; 10], $"video", $".ogv");
    (text "CMML" ++ [0; 0; 0; 0], $"text", $".ogg"); (128 :: text "kate" ++ [0; 0; 0], $"text", $".ogg"); (text "OggMIDI" ++ [0], $"text", $".ogg");
    (1 :: text "audio", $"audio", $".ogm"); (1 :: text "video", $"video", $".ogm"); (1 :: text "text", $"text", $".ogm") ].

Definition kind (body : list Z) (media ext : str) : Prop :=
  (exists magic rest, In (magic, media, ext) known /\ body = magic ++ rest) \/
  ((forall magic m e rest, In (magic, m, e) known -> body <> magic ++ rest) /\ media = $"unknown" /\ ext = $".ogg").

Definition stream_name (id : Z) (body : list Z) (nm : str) : Prop :=
  exists media digits ext, nm = media ++ $"_" ++ digits ++ ext /\ List.length digits = 8%nat /\ hex_value digits = id /\ kind body media ext.

(** The body of the first page of a stream. *)
Definition first_body (ps : list opage) : list Z := match ps with p :: _ => o_body p | [] => [] end.
