(** Model of the mount of a compressed file that is no TAR archive: get_gzip_info, core/ratarmountcore/compressions.py 388-405, and the end
    of SQLiteIndexedTar._create_index, core/ratarmountcore/mountsource/formats/tar.py 946-1011. *)
From Coq Require Import Ascii String.
From Verif Require Import PyBase PyStr FileInfo Index_Model LibIndex_Model.
Local Open Scope Z_scope.

Definition byte (c : ascii) : Z := Z.of_N (N_of_ascii c).

(** The loop reading the name, compressions.py 397-401: None if the file ends before a zero byte; the loop then goes on for ever. *)
Fixpoint read_name (rest : str) : option str :=
  match rest with
  | [] => None
  | c :: rest => if byte c =? 0 then Some [] else option_map (cons c) (read_name rest)
  end.

Section Single.
  (** bytes.decode() does not raise. *)
  Variable utf8 : str -> bool.

  (** get_gzip_info, compressions.py 388-405.  '<U' is no format of the struct module, so that unpacking the length of the extra field
      always raises.  The loop without an end is OutOfFuel. *)
  Definition get_gzip_info (file : str) : res (option (str * Z)) :=
    match file with
    | id1 :: id2 :: compression :: flags :: m0 :: m1 :: m2 :: m3 :: _ :: _ :: rest =>
        let mtime := byte m0 + 256 * byte m1 + 65536 * byte m2 + 16777216 * byte m3 in
        if negb (byte id1 =? 31) || negb (byte id2 =? 139) || negb (byte compression =? 8) then Ok None
        else if negb (Z.land (byte flags) (Z.shiftl 1 2) =? 0) then Err StructError
        else if negb (Z.land (byte flags) (Z.shiftl 1 3) =? 0) then
          match read_name rest with
          | Some name => if utf8 name then Ok (Some (name, mtime)) else Err UnicodeError
          | None => Err OutOfFuel
          end
        else Ok None
    | _ => Err StructError
    end.

  (** os.path.basename *)
  Definition basename (path : str) : str := match rsplit1 slash path with Some (_, name) => name | None => path end.

  (** The suffixes of tar.py 966, without the dot. *)
  Definition suffixes : list str :=
    [$"gz"; $"bz2"; $"bzip2"; $"gzip"; $"xz"; $"zst"; $"zstd"; $"zz"; $"zlib"].

  (** Name and time, tar.py 965-985.  [raw]: the compressed file.  All exceptions are caught; the result is None if the loop does not end. *)
  Definition name_and_time (tarFileName : str) (raw : option str) : option (str * Z) :=
    let fname := cut_suffix suffixes (basename tarFileName) in
    match raw with
    | None => Some (fname, 0)
    | Some file =>
        match get_gzip_info file with
        | Ok (Some info) => Some info
        | Ok None => Some (fname, 0)
        | Err OutOfFuel => None
        | Err _ => Some (fname, 0)
        end
    end.

  (** os.fstat of the file object, if it has a file descriptor. *)
  Record status := mkStatus { st_mtime : Z; st_mode : Z; st_uid : Z; st_gid : Z }.

  (** The row, tar.py 990-1011, of a file with [size] bytes after decompression.  0o777 | S_IFREG = 33279.  The header offset is NULL;
      it is 0 here. *)
  Definition single_row (tarFileName : str) (raw : option str) (stat : option status) (size recursionDepth : Z) : option row :=
    match name_and_time tarFileName raw with
    | None => None
    | Some (fname, mtime) =>
        Some (mkRow [] fname 0 0 size
          (match stat with Some s => st_mtime s | None => mtime end) (match stat with Some s => st_mode s | None => 33279 end) 0 []
          (match stat with Some s => st_uid s | None => 0 end) (match stat with Some s => st_gid s | None => 0 end)
          false false false (recursionDepth - 1))
    end.

  (** The end of _create_index, tar.py 946-1011: [found] was inserted for the members of the archive. *)
  Definition finish_index (found : list insertion) (compressed : bool) (tarFileName : str) (raw : option str) (stat : option status)
    (size recursionDepth : Z) : res (list insertion) :=
    match inserted_rows found with
    | _ :: _ => Ok found
    | [] =>
        if compressed then
          match single_row tarFileName raw stat size recursionDepth with
          | Some r => Ok (found ++ [One r])
          | None => Err OutOfFuel
          end
        else Err RatarmountError
    end.
End Single.
