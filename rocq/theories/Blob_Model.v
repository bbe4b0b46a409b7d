(** Model of core/ratarmountcore/SQLiteBlobFile.py. *)
From Verif Require Import PyBase.
Local Open Scope Z_scope.

Section Model.
  Context {A : Type}.

  (** WriteSQLiteBlobs, SQLiteBlobFile.py:55-61.  [w_table] are the rows of the table in ROWID order (the table is
      created empty right before, SQLiteIndex.py:1563-1564); [w_blob] is the content of [self.blob], whose position is
      always at its end. *)
  Record writer := mkW { w_table : list (list A); w_blob_size : Z; w_blob : list A; w_size : Z }.
  Definition w_init (blob_size : Z) : writer := mkW [] blob_size [] 0.

  (** WriteSQLiteBlobs._flush_blob, SQLiteBlobFile.py:63-66. *)
  Definition w_flush (w : writer) : writer :=
    mkW (if 0 <? len (w_blob w) then w_table w ++ [w_blob w] else w_table w) (w_blob_size w) [] (w_size w).

  (** WriteSQLiteBlobs.write, SQLiteBlobFile.py:96-112.  The slices are Python's: [freeBytesInBlob] can be negative. *)
  Definition w_write (w : writer) (buffer : list A) : res Z * writer :=
    let free := w_blob_size w - len (w_blob w) in
    let '(written, w1) :=
      if len buffer <? free then
        (len buffer, mkW (w_table w) (w_blob_size w) (w_blob w ++ buffer) (w_size w))
      else
        let first := py_slice buffer 0 free in
        let w1 := w_flush (mkW (w_table w) (w_blob_size w) (w_blob w ++ first) (w_size w)) in
        let second := py_slice buffer free (len buffer) in
        (len first + len second, mkW (w_table w1) (w_blob_size w1) (w_blob w1 ++ second) (w_size w1)) in
    let w2 := mkW (w_table w1) (w_blob_size w1) (w_blob w1) (w_size w1 + written) in
    if written =? len buffer then (Ok (len buffer), w2) else (Err RuntimeError, w2).

  (** The writes of one export (SQLiteIndex.py:1567-1574) followed by leaving the [with] block (SQLiteBlobFile.py:71-72).
      Result: the return values and the final writer. *)
  Fixpoint w_writes (w : writer) (buffers : list (list A)) : list (res Z) * writer :=
    match buffers with
    | [] => ([], w)
    | b :: r => let '(x, w') := w_write w b in let '(xs, w'') := w_writes w' r in (x :: xs, w'')
    end.
  Definition export (blob_size : Z) (buffers : list (list A)) : list (res Z) * writer :=
    let '(xs, w) := w_writes (w_init blob_size) buffers in (xs, w_flush w).

  (** SQLite's [substr(blob, Y, Z)] for [Y >= 1] and [Z >= 0]: counting starts at 1. *)
  Definition sql_substr (blob : list A) (y z : Z) : list A := zslice blob (y - 1) z.
  (** SQLiteBlobFile.read_blob_part, SQLiteBlobFile.py:29-31. *)
  Definition read_blob_part (blob : list A) (offset size : Z) : list A := sql_substr blob (offset + 1) size.

  (** SQLiteBlobsFile.__init__, SQLiteBlobFile.py:37-51, with JoinedFile (StenciledFile.py:329-337): one cut-out per row in
      ROWID order; the underlying file number i is the i-th blob. *)
  Definition blob_cuts (table : list (list A)) : list (nat * Z * Z) :=
    map (fun i => (i, 0, len (nth i table []))) (seq 0 (length table)).
End Model.
Arguments writer : clear implicits.
