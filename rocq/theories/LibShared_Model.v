(** Model of reading members with libarchive out of an archive that is given as one Python file object, e.g. an archive inside of another
    archive: /repo/core/ratarmountcore/mountsource/formats/libarchive.py, IterableArchive._open_with_file_object 270-299.

    All IterableArchive objects read through callbacks from the same file object, and so share its position.  The format stands for any
    format that is read from front to back: an entry is its length followed by its bytes, where the length is one symbol.  Simplifications:
    a member is opened, read completely and closed in one step, and the library pulls data only when what it holds is used up. *)
From Verif Require Import PyBase.

Section Shared.
  (** The bytes of the file object, the buffer size of the callback (1 MiB, libarchive.py 198), and cacheSize (5, libarchive.py 339). *)
  Variable bytes : list nat.
  Variable buffer : nat.
  Variable cache_size : nat.

  (** IterableArchive: [_entryIndex], what the library has pulled but not used, how much of that or of what follows belongs to the
      current entry, [_eof]. *)
  Record sarch := mkSA { sa_index : nat; sa_pending : list nat; sa_left : nat; sa_eof : bool }.

  (** The library calls read_from_file_object (libarchive.py 275-284) until it holds [n] bytes or the file ends; [pos] is the position of
      the file object. *)
  Fixpoint pull (fuel n : nat) (pending : list nat) (pos : nat) : list nat * nat :=
    match fuel with
    | O => (pending, pos)
    | S fuel =>
      if n <=? length pending then (pending, pos)
      else match firstn buffer (skipn pos bytes) with
           | [] => (pending, pos)
           | chunk => pull fuel n (pending ++ chunk) (pos + length chunk)
           end
    end.
  Definition pull_all (n : nat) (pending : list nat) (pos : nat) : list nat * nat := pull (S (length bytes)) n pending pos.

  (** IterableArchive.__init__: [self._file.seek(0)], libarchive.py 292, and read_open, which looks at the first bytes. *)
  Definition sa_new : sarch * nat :=
    let '(pending, pos) := pull_all 1 [] 0 in (mkSA 0 pending 0 false, pos).

  (** IterableArchive.next_entry, libarchive.py 310-329. *)
  Definition sa_next (a : sarch) (pos : nat) : sarch * nat * option nat :=
    if sa_eof a then (a, pos, None)
    else
      let '(pending, pos) := pull_all (sa_left a + 1) (sa_pending a) pos in
      match skipn (sa_left a) pending with
      | [] => (mkSA (S (sa_index a)) [] 0 true, pos, None)
      | n :: rest => (mkSA (S (sa_index a)) rest n false, pos, Some (sa_index a))
      end.

  (** The loop of LibarchiveFile._open, libarchive.py 388-394. *)
  Fixpoint sa_find (fuel : nat) (a : sarch) (pos : nat) (index : nat) : sarch * nat * res bool :=
    match fuel with
    | O => (a, pos, Err OutOfFuel)
    | S fuel =>
      match sa_next a pos with
      | (a, pos, None) => (a, pos, Ok false)
      | (a, pos, Some i) => if i =? index then (a, pos, Ok true) else sa_find fuel a pos index
      end
    end.

  (** IterableArchive.read_data, libarchive.py 334-335. *)
  Definition sa_read (a : sarch) (pos : nat) (size : nat) : sarch * nat * list nat :=
    let n := Nat.min size (sa_left a) in
    let '(pending, pos) := pull_all n (sa_pending a) pos in
    let data := firstn n pending in
    (mkSA (sa_index a) (skipn n pending) (sa_left a - length data) (sa_eof a), pos, data).

  (** IterableArchiveCache.insert and take, libarchive.py 343-354. *)
  Definition sa_insert (cache : list sarch) (a : sarch) : list sarch :=
    let cache := cache ++ [a] in skipn (length cache - cache_size) cache.
  Fixpoint sa_best (cache : list sarch) (index : nat) : option sarch :=
    match cache with
    | [] => None
    | a :: cache =>
      match sa_best cache index with
      | Some b => if (sa_index a <? index) && (sa_index b <=? sa_index a) then Some a else Some b
      | None => if sa_index a <? index then Some a else None
      end
    end.
  Fixpoint sa_remove (index : nat) (cache : list sarch) : list sarch :=
    match cache with
    | [] => []
    | a :: cache => if sa_index a =? index then cache else a :: sa_remove index cache
    end.

  (** Opening a member, reading it and closing it: LibarchiveFile._open, _refill_buffer and close, libarchive.py 381-430.  The state is the
      cache and the position of the file object; [size] is the size in the index. *)
  Definition fetch (st : list sarch * nat) (index size : nat) : list sarch * nat * res (list nat) :=
    let '(cache, pos) := st in
    let '(a, cache, pos) := match sa_best cache index with
                            | Some a => (a, sa_remove (sa_index a) cache, pos)
                            | None => let '(a, pos) := sa_new in (a, cache, pos)
                            end in
    let '(a, pos, found) := sa_find (length bytes + 2) a pos index in
    match found with
    | Err e => (sa_insert cache a, pos, Err e)
    | Ok false => (sa_insert cache a, pos, Err ValueError)
    | Ok true =>
      let '(a, pos, data) := sa_read a pos size in
      (sa_insert cache a, pos, if length data =? size then Ok data else Err RuntimeError)
    end.

  Fixpoint fetches (st : list sarch * nat) (opens : list (nat * nat)) : list (res (list nat)) :=
    match opens with
    | [] => []
    | (index, size) :: opens => let '(cache, pos, r) := fetch st index size in r :: fetches (cache, pos) opens
    end.
End Shared.
