(** Model of reading members with libarchive: /repo/core/ratarmountcore/mountsource/formats/libarchive.py, the classes IterableArchive,
    IterableArchiveCache and LibarchiveFile.

    The library itself is external: an archive is the list of the contents of its entries, archive_read_next_header2 moves to the next
    entry and archive_read_data returns the next bytes of the current entry, all that were asked for unless the entry ends.  An archive
    that is given as a file object is modelled in LibShared_Model.v. *)
From Verif Require Import PyBase.
Local Open Scope Z_scope.

Section Lib.
  Context {A : Type}.
  Variable entries : list (list A).
  (** IterableArchiveCache.cacheSize (5) and LibarchiveFile._bufferSizeMax (1 MiB), libarchive.py 339 and 374. *)
  Variable cache_size : nat.
  Variable buffer_max : Z.

  (** IterableArchive, libarchive.py 193-224: [_entryIndex], the position in the data of the current entry, [_eof]. *)
  Record iarch := mkIA { ia_index : nat; ia_pos : Z; ia_eof : bool }.
  Definition ia_new : iarch := mkIA 0 0 false.

  (** IterableArchive.next_entry, libarchive.py 310-329: the number of the entry that is current now.  [_entryIndex] is advanced at the
      end of the archive, too. *)
  Definition next_entry (a : iarch) : iarch * option nat :=
    if ia_eof a then (a, None)
    else match nth_error entries (ia_index a) with
         | Some _ => (mkIA (S (ia_index a)) 0 false, Some (ia_index a))
         | None => (mkIA (S (ia_index a)) 0 true, None)
         end.

  (** IterableArchive.read_data, libarchive.py 334-335. *)
  Definition read_data (a : iarch) (size : Z) : iarch * list A :=
    let content := nth (pred (ia_index a)) entries [] in
    let chunk := zslice content (ia_pos a) size in
    (mkIA (ia_index a) (ia_pos a + len chunk) (ia_eof a), chunk).

  (** IterableArchiveCache.insert, libarchive.py 343-346. *)
  Definition cache_insert (cache : list iarch) (a : iarch) : list iarch :=
    let cache := cache ++ [a] in skipn (length cache - cache_size) cache.

  (** [max(qualified, key=...)] and [pop], libarchive.py 348-354: the first of those with the greatest number below [index]. *)
  Fixpoint best (cache : list iarch) (index : nat) : option iarch :=
    match cache with
    | [] => None
    | a :: cache =>
      match best cache index with
      | Some b => if Nat.ltb (ia_index a) index && Nat.leb (ia_index b) (ia_index a) then Some a else Some b
      | None => if Nat.ltb (ia_index a) index then Some a else None
      end
    end.
  Fixpoint remove_first (index : nat) (cache : list iarch) : list iarch :=
    match cache with
    | [] => []
    | a :: cache => if Nat.eqb (ia_index a) index then cache else a :: remove_first index cache
    end.
  Definition take (cache : list iarch) (index : nat) : option iarch * list iarch :=
    match best cache index with
    | Some a => (Some a, remove_first (ia_index a) cache)
    | None => (None, cache)
    end.

  (** LibarchiveFile, libarchive.py 357-379: [lf_buffer] is the length of [_buffer], [lf_io] are the content and the position of
      [_bufferIO]. *)
  Record lfile := mkLF {
    lf_index : nat; lf_size : Z; lf_archive : option iarch; lf_buffer : option Z; lf_offset : Z; lf_io : option (list A * Z) }.

  (** LibarchiveFile._refill_buffer, libarchive.py 399-418. *)
  Definition refill (f : lfile) : lfile * option exn :=
    let buffered := match lf_buffer f with Some n => n | None => 0 end in
    if lf_size f <=? lf_offset f + buffered then (f, None)
    else
      let offset := lf_offset f + buffered in
      let size := Z.min buffer_max (Z.max 0 (lf_size f - offset)) in
      match lf_archive f with
      | None => (f, Some AttributeError)
      | Some a =>
        let '(a, chunk) := read_data a size in
        if len chunk =? size
        then (mkLF (lf_index f) (lf_size f) (Some a) (Some size) offset (Some (chunk, 0)), None)
        else (mkLF (lf_index f) (lf_size f) (Some a) (Some size) offset (lf_io f), Some RuntimeError)
      end.

  (** LibarchiveFile.close, libarchive.py 420-430. *)
  Definition close (cache : list iarch) (f : lfile) : list iarch * lfile :=
    (match lf_archive f with Some a => cache_insert cache a | None => cache end,
     mkLF (lf_index f) (lf_size f) None None (match lf_io f with Some _ => 0 | None => lf_offset f end) None).

  (** The loop of LibarchiveFile._open, libarchive.py 388-394: the archive, and whether the entry was found. *)
  Fixpoint find (fuel : nat) (a : iarch) (index : nat) : iarch * res bool :=
    match fuel with
    | O => (a, Err OutOfFuel)
    | S fuel =>
      match next_entry a with
      | (a, None) => (a, Ok false)
      | (a, Some i) => if Nat.eqb i index then (a, Ok true) else find fuel a index
      end
    end.

  (** LibarchiveFile._open, libarchive.py 381-397. *)
  Definition reopen (cache : list iarch) (f : lfile) : list iarch * lfile * option exn :=
    let '(cache, f) := close cache f in
    let '(taken, cache) := take cache (lf_index f) in
    let a := match taken with Some a => a | None => ia_new end in
    let '(a, found) := find (length entries + 2) a (lf_index f) in
    let f := mkLF (lf_index f) (lf_size f) (Some a) (lf_buffer f) (lf_offset f) (lf_io f) in
    match found with
    | Ok true => let '(f, e) := refill f in (cache, f, e)
    | Ok false => (cache, f, Some ValueError)
    | Err e => (cache, f, Some e)
    end.

  (** [self._bufferIO.read(size)] *)
  Definition io_read (io : list A * Z) (size : Z) : (list A * Z) * list A :=
    let '(content, pos) := io in
    let chunk := if size <? 0 then zskip pos content else zslice content pos size in
    ((content, pos + len chunk), chunk).

  Definition with_io (f : lfile) (io : list A * Z) : lfile :=
    mkLF (lf_index f) (lf_size f) (lf_archive f) (lf_buffer f) (lf_offset f) (Some io).

  (** LibarchiveFile.read1, libarchive.py 449-456. *)
  Definition read1 (f : lfile) (size : Z) : lfile * res (list A) :=
    match lf_io f with
    | None => (f, Err RuntimeError)
    | Some io =>
      let '(io, chunk) := io_read io size in
      let f := with_io f io in
      match chunk with
      | _ :: _ => (f, Ok chunk)
      | [] =>
        match refill f with
        | (f, Some e) => (f, Err e)
        | (f, None) =>
          match lf_io f with
          | None => (f, Err AttributeError)
          | Some io => let '(io, chunk) := io_read io size in (with_io f io, Ok chunk)
          end
        end
      end
    end.

  (** LibarchiveFile.read, libarchive.py 458-466. *)
  Fixpoint read_loop (fuel : nat) (f : lfile) (size : Z) (result : list A) : lfile * res (list A) :=
    match fuel with
    | O => (f, Err OutOfFuel)
    | S fuel =>
      if (size <? 0) || (len result <? size) then
        match read1 f (if size <? 0 then size else size - len result) with
        | (f, Err e) => (f, Err e)
        | (f, Ok []) => (f, Ok result)
        | (f, Ok data) => read_loop fuel f size (result ++ data)
        end
      else (f, Ok result)
    end.
  Definition read (f : lfile) (size : Z) : lfile * res (list A) := read_loop (Z.to_nat (lf_size f) + 2) f size [].

  (** LibarchiveFile._skip, libarchive.py 468-475. *)
  Fixpoint skip_loop (fuel : nat) (f : lfile) (size : Z) : lfile * option exn :=
    match fuel with
    | O => (f, Some OutOfFuel)
    | S fuel =>
      if 0 <? size then
        match read1 f size with
        | (f, Err e) => (f, Some e)
        | (f, Ok []) => (f, None)
        | (f, Ok data) => skip_loop fuel f (size - len data)
        end
      else (f, None)
    end.
  Definition skip (f : lfile) (size : Z) : lfile * option exn :=
    match lf_io f with None => (f, Some RuntimeError) | Some _ => skip_loop (Z.to_nat (lf_size f) + 2) f size end.

  (** LibarchiveFile.tell, libarchive.py 502-507. *)
  Definition tell (f : lfile) : Z := lf_offset f + match lf_io f with Some (_, pos) => pos | None => 0 end.

  (** [whence]: io.SEEK_CUR, io.SEEK_END, anything else. *)
  Inductive whence := SeekSet | SeekCur | SeekEnd.

  (** LibarchiveFile.seek, libarchive.py 477-500. *)
  Definition seek (cache : list iarch) (f : lfile) (offset : Z) (w : whence) : list iarch * lfile * res Z :=
    match lf_io f with
    | None => (cache, f, Err RuntimeError)
    | Some (content, _) =>
      let here := tell f in
      let offset := match w with SeekSet => offset | SeekCur => offset + here | SeekEnd => offset + lf_size f end in
      let finish cache r := match r with (f, Some e) => (cache, f, Err e) | (f, None) => (cache, f, Ok (tell f)) end in
      if here <=? offset then finish cache (skip f (offset - here))
      else
        let buffered := match lf_buffer f with Some n => n | None => 0 end in
        if (lf_offset f <=? offset) && (offset <? lf_offset f + buffered)
        then finish cache (with_io f (content, offset - lf_offset f), None)
        else match reopen cache f with
             | (cache, f, Some e) => (cache, f, Err e)
             | (cache, f, None) => finish cache (skip f (Z.max 0 offset))
             end
    end.

  (** All open files of one LibarchiveMountSource share its cache, libarchive.py 511-546 and 601-613.  [EOpen index size] is
      LibarchiveMountSource.open of a file with that header offset and size. *)
  Record world := mkWorld { w_cache : list iarch; w_files : list lfile }.
  Definition w_init : world := mkWorld [] [].

  Inductive event :=
  | EOpen (index : nat) (size : Z)
  | ERead (h : nat) (size : Z)
  | ESeek (h : nat) (offset : Z) (w : whence)
  | ETell (h : nat)
  | EClose (h : nat).
  Inductive reply := RHandle (h : nat) | RData (d : list A) | RPos (p : Z) | RDone | RRaise (e : exn).

  Fixpoint replace (n : nat) (f : lfile) (l : list lfile) : list lfile :=
    match n, l with
    | O, _ :: l => f :: l
    | S n, x :: l => x :: replace n f l
    | _, [] => []
    end.

  (** A file whose constructor raised is closed when it is destroyed (io.RawIOBase.__del__). *)
  Definition step (w : world) (e : event) : world * option reply :=
    match e with
    | EOpen index size =>
      let '(cache, f, err) := reopen (w_cache w) (mkLF index size None None 0 None) in
      match err with
      | Some e => (mkWorld (fst (close cache f)) (w_files w), Some (RRaise e))
      | None => (mkWorld cache (w_files w ++ [f]), Some (RHandle (length (w_files w))))
      end
    | ERead h size =>
      match nth_error (w_files w) h with
      | None => (w, None)
      | Some f => let '(f, r) := read f size in
                  (mkWorld (w_cache w) (replace h f (w_files w)), Some (match r with Ok d => RData d | Err e => RRaise e end))
      end
    | ESeek h offset wh =>
      match nth_error (w_files w) h with
      | None => (w, None)
      | Some f => let '(cache, f, r) := seek (w_cache w) f offset wh in
                  (mkWorld cache (replace h f (w_files w)), Some (match r with Ok p => RPos p | Err e => RRaise e end))
      end
    | ETell h =>
      match nth_error (w_files w) h with None => (w, None) | Some f => (w, Some (RPos (tell f))) end
    | EClose h =>
      match nth_error (w_files w) h with
      | None => (w, None)
      | Some f => let '(cache, f) := close (w_cache w) f in (mkWorld cache (replace h f (w_files w)), Some RDone)
      end
    end.

  Fixpoint run (w : world) (es : list event) : list (option reply) :=
    match es with [] => [] | e :: es => let '(w, r) := step w e in r :: run w es end.
End Lib.
Arguments reply : clear implicits.
Arguments lfile : clear implicits.
Arguments world : clear implicits.
