(** Model of /repo/core/ratarmountcore/hashing.py and of the hashing in mountsource/SQLiteIndexMountSource.py 118-209. *)
From Coq Require Import Ascii String.
From Verif Require Import PyBase PyDict PyStr FileInfo Index_Model Xattr_Model.
Local Open Scope Z_scope.

Definition byte (c : ascii) : Z := Z.of_nat (nat_of_ascii c).

(** f"{n:0wx}" for 0 <= n < 16^w *)
Definition hex_digit (d : Z) : ascii := ascii_of_nat (Z.to_nat (if d <? 10 then 48 + d else 87 + d)).
Fixpoint hex (w : nat) (n : Z) : str :=
  match w with O => [] | S w => hex w (n / 16) ++ [hex_digit (n mod 16)] end.

(** ** SMPlayer, hashing.py 43-76 *)

(** _zero_pad, hashing.py 43-44 *)
Definition zero_pad (data : str) (size : Z) : str := ztake size data ++ repeat zero (Z.to_nat (size - len data)).

(** int.from_bytes(data, 'little', signed=False) *)
Fixpoint from_bytes (data : str) : Z := match data with [] => 0 | c :: r => byte c + 256 * from_bytes r end.

(** _smplayer_hash_accumulate, hashing.py 47-51 *)
Definition accumulate (data : str) : Z :=
  fold_left (fun result i => result + from_bytes (zero_pad (zslice data i 8) 8))
    (map (fun k => 8 * Z.of_nat k) (seq 0 (Z.to_nat ((len data + 7) / 8)))) 0.

Section Hashing.
  (** How many of the bytes that are available a read call returns; [calls] counts the calls. *)
  Variable cut : nat -> Z -> Z.
  Record file := mkFile { content : str; pos : Z; calls : nat }.
  Definition seek (f : file) (p : Z) : file := mkFile (content f) p (calls f).
  Definition read (f : file) (n : Z) : str * file :=
    let available := Z.min n (len (content f) - pos f) in
    let amount := if available <=? 0 then 0 else cut (calls f) available in
    (zslice (content f) (pos f) amount, mkFile (content f) (pos f + amount) (S (calls f))).

  (** smplayer_hash, hashing.py 54-76 *)
  Definition smplayer_hash (f : file) : str * file :=
    let chunk_size := 65536 in
    let f := seek f 0 in
    let '(data, f) := read f chunk_size in
    let result := accumulate data in
    let file_size := len (content f) in
    let result := result + file_size in
    let f := seek f (Z.min (Z.max chunk_size (file_size - chunk_size)) file_size) in
    let '(data, f) := read f chunk_size in
    let result := result + accumulate data in
    (hex 16 (Z.land result 18446744073709551615), f).

  (** ** CRC-32: zlib.crc32(data, value) (polynomial 0xEDB88320) and _CRC32Hasher, hashing.py 16-24 *)
  Definition crc_bit (c : Z) : Z := if Z.odd c then Z.lxor (Z.shiftr c 1) 3988292384 else Z.shiftr c 1.
  Definition crc_byte (c : Z) (x : ascii) : Z :=
    let c := Z.lxor c (byte x) in
    crc_bit (crc_bit (crc_bit (crc_bit (crc_bit (crc_bit (crc_bit (crc_bit c))))))).
  Definition crc32 (data : str) (value : Z) : Z := Z.lxor (fold_left crc_byte data (Z.lxor value 4294967295)) 4294967295.

  (** ** compute_hashes, hashing.py 79-128 *)

  (** The objects of hashlib: hashlib.new (None: ValueError), update, hexdigest. *)
  Variable S_ : Type.
  Variable new_ : str -> option S_.
  Variable update_ : S_ -> str -> S_.
  Variable hexdigest_ : S_ -> str.
  (** HASH_REGISTRY: [Some sparse] for known names. *)
  Variable registry : str -> option bool.

  Inductive hasher := Crc (value : Z) | Lib (s : S_).
  Definition update (h : hasher) (data : str) : hasher := match h with Crc v => Crc (crc32 data v) | Lib s => Lib (update_ s data) end.
  Definition hexdigest (h : hasher) : str := match h with Crc v => hex 8 (Z.land v 4294967295) | Lib s => hexdigest_ s end.

  (** hashing.py 88-107 *)
  Definition select (st : list (str * hasher) * list str) (algorithm : str) : list (str * hasher) * list str :=
    let '(hashers, sparse) := st in
    if str_eqb algorithm [] then st
    else match registry algorithm with
         | None => st
         | Some true => (hashers, sparse ++ [algorithm])
         | Some false => if str_eqb algorithm $"crc32" then (dset str_eqb hashers algorithm (Crc 0), sparse)
                         else match new_ algorithm with
                              | Some s => (dset str_eqb hashers algorithm (Lib s), sparse)
                              | None => st
                              end
         end.
  (** hashing.py 113-118; the progress callback is not modelled *)
  Fixpoint read_loop (fuel : nat) (f : file) (hashers : list (str * hasher)) : res (list (str * hasher) * file) :=
    match fuel with
    | O => Err OutOfFuel
    | S n => let '(chunk, f) := read f 1048576 in
             if str_eqb chunk [] then Ok (hashers, f)
             else read_loop n f (map (fun '(a, h) => (a, update h chunk)) hashers)
    end.
  Definition add_sparse (st : list (str * str) * file) (algorithm : str) : list (str * str) * file :=
    let '(result, f) := st in
    if str_eqb algorithm $"smplayer" then let '(v, f) := smplayer_hash f in (dset str_eqb result algorithm v, f) else st.
  Definition compute_hashes (f : file) (algorithms : list str) : res (list (str * str)) :=
    match algorithms with
    | [] => Ok []
    | _ =>
      let '(hashers, sparse) := fold_left select algorithms ([], []) in
      match (match hashers with [] => Ok ([], f) | _ => read_loop (S (length (content f))) (seek f 0) hashers end) with
      | Err e => Err e
      | Ok (hashers, f) =>
        let result := dict_of str_eqb (map (fun '(a, h) => (a, hexdigest h)) hashers) in
        Ok (fst (fold_left add_sparse sparse (result, f)))
      end
    end.
End Hashing.

(** ** SQLiteIndexMountSource._compute_and_store_hashes, SQLiteIndexMountSource.py 118-209 *)
Section Storing.
  (** self.hashes *)
  Variable hashes : list str.
  (** open and compute_hashes for a row of the table, None if they raise. *)
  Variable computed : row -> option (list (str * str)).
  (** The order of rows with equal header offsets. *)
  Variable shuffle : list row -> list row.

  Definition xattr_key (h : str) : str := $"user.hash." ++ h.

  (** COUNT(DISTINCT xattrs.key) over the joined rows, lines 148-158 *)
  Definition distinct (l : list str) : list str := nodup (list_eq_dec ascii_dec) l.
  Definition stored_count (x : @xattrs str) (r : row) : Z :=
    len (distinct (map (fun '(_, k, _) => k)
      (filter (fun '(oh, k, _) => (oh =? r_offsetheader r) && existsb (str_eqb k) (map xattr_key hashes)) (view x)))).
  Definition pending (files : list row) (x : @xattrs str) : list row :=
    sort_by r_offsetheader (shuffle (filter (fun r => (Z.land (r_mode r) 61440 =? 32768) && negb (r_isgenerated r)
      && (stored_count x r <? len (map xattr_key hashes))) files)).

  (** The rows of the xattrs table for one file, lines 201-204. *)
  Definition entries_of (r : row) (c : list (str * str)) : list (Z * str * str) :=
    map (fun '(name, value) => (r_offsetheader r, xattr_key name, value)) c.
  (** The loop, lines 177-209: the calls of setxattrs. *)
  Definition hash_step (st : list (Z * str * str) * list (list (Z * str * str))) (r : row) : list (Z * str * str) * list (list (Z * str * str)) :=
    let '(batch, calls) := st in
    match computed r with
    | None => st
    | Some c => let batch := batch ++ entries_of r c in
                if 1000 <=? len batch then ([], calls ++ [batch]) else (batch, calls)
    end.
  Definition hash_calls (files : list row) (x : @xattrs str) : list (list (Z * str * str)) :=
    match hashes with
    | [] => []
    | _ => let '(batch, calls) := fold_left hash_step (pending files x) ([], []) in
           match batch with [] => calls | _ => calls ++ [batch] end
    end.
  Definition store_hashes (files : list row) (x : @xattrs str) : @xattrs str := fold_left setxattrs (hash_calls files x) x.
End Storing.
