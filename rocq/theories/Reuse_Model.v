(** Model of when the index of an archive that is no TAR archive (ZIP, RAR, 7z, ar, asar, SquashFS, ..) is used again:
    the constructor of SQLiteIndexMountSource (/repo/core/ratarmountcore/mountsource/SQLiteIndexMountSource.py 22-95), _check_metadata
    (106-117), _store_default_metadata (96-101), _finalize_index (211-243), and the checks in /repo/core/ratarmountcore/SQLiteIndex.py
    455-559 and 561-592.  TAR archives have their own check (Append_Model.v).

    The archive is a file named by a path, and there is one place for its index; where indexes are looked for is modelled in
    Locate_Model.v, the completeness of the index tables in Crash_Model.v, and the check sums in Hash_Model.v.  Left out: archives given
    as open files (whose index is in memory), URLs (which have no stored statistics), the limit on the file count for writing an index,
    and the version of the index, which only causes warnings. *)
From Coq Require Import Ascii String.
From Verif Require Import PyBase PyStr.
Local Open Scope Z_scope.

Section Reuse.
  (** Contents of archives, the arguments that are stored (encoding, transformPattern, hashes), tables of files. *)
  Variables A G R : Type.
  Variable same_args : G -> G -> bool.
  (** create_index: what the back end makes of the archive. *)
  Variable parse : G -> A -> res R.
  (** Whether the first file of the table can be opened and read, SQLiteIndex.py 498-521. *)
  Variable first_opens : A -> R -> bool.

  (** The archive on the disk. *)
  Record file := mkFile { f_content : A; f_size : Z; f_mtime : Z }.

  (** The rows of the table metadata: 'tarstats' with 'st_size' and 'st_mtime', 'arguments' and 'backendName'. *)
  Record meta := mkMeta { m_stats : option (option Z * option Z); m_args : option G; m_backend : option str }.
  Record index := mkIndex { x_rows : R; x_meta : meta }.

  (** The options of a mount: verifyModificationTime, clearIndexCache, the stored arguments, backendName, writeIndex, readOnly. *)
  Record options := mkOptions { o_verify : bool; o_recreate : bool; o_args : G; o_backend : str; o_write : bool; o_read_only : bool }.

  (** check_archive_stats, SQLiteIndex.py 524-559; InvalidIndexError is RatarmountError here. *)
  Definition check_archive_stats (f : file) (m : meta) (verify : bool) : res unit :=
    match m_stats m with
    | None => Ok tt
    | Some (size, mtime) =>
        if match size with Some s => f_size f <? s | None => false end then Err RatarmountError
        else if verify && match mtime with Some t => negb (f_mtime f =? t) | None => false end then Err RatarmountError
        else Ok tt
    end.

  (** check_metadata_arguments, SQLiteIndex.py 561-578: whether there is a warning. *)
  Definition differing (o : options) (m : meta) : bool := match m_args m with Some a => negb (same_args a (o_args o)) | None => false end.

  (** check_metadata_backend, SQLiteIndex.py 580-592 *)
  Definition check_backend (o : options) (m : meta) : res unit :=
    if str_eqb (o_backend o) [] then Ok tt
    else match m_backend m with Some b => if str_eqb b (o_backend o) then Ok tt else Err MismatchingIndexError | None => Ok tt end.

  (** SQLiteIndex.py 1300-1304 and SQLiteIndexMountSource._check_metadata, 106-117: an error, or whether there was a warning. *)
  Definition check (f : file) (o : options) (x : index) : res bool :=
    bind (check_backend o (x_meta x)) (fun _ =>
    bind (check_archive_stats f (x_meta x) (o_verify o)) (fun _ =>
    match m_backend (x_meta x) with
    | Some _ => Ok (differing o (x_meta x))
    | None => if first_opens (f_content f) (x_rows x) then Ok (differing o (x_meta x)) else Err RatarmountError
    end)).

  (** store_metadata, SQLiteIndex.py 485-493, over _store_default_metadata, SQLiteIndexMountSource.py 96-101 *)
  Definition metadata (f : file) (o : options) : meta :=
    mkMeta (Some (Some (f_size f), Some (f_mtime f))) (Some (o_args o)) (Some (o_backend o)).

  (** What a mount yields: the table of files, whether it was made anew, and whether there was a warning about other arguments. *)
  Record mounted := mkMounted { r_rows : R; r_built : bool; r_warned : bool }.

  (** Making a new index: _finalize_index, SQLiteIndexMountSource.py 229-243, over finalize_index, SQLiteIndex.py 756-775.  A table that
      could not be made leaves an incomplete file, which is as good as none (Crash_Model.v). *)
  Definition build (f : file) (o : options) : res mounted * option index :=
    if o_read_only o then (Err RatarmountError, None)
    else match parse (o_args o) (f_content f) with
         | Err e => (Err e, None)
         | Ok r => (Ok (mkMounted r true false), if o_write o then Some (mkIndex r (metadata f o)) else None)
         end.

  (** A mount: SQLiteIndexMountSource.py 67-71 and 88-90, _try_load_index (SQLiteIndex.py 1338-1383: a rejected index is removed), and
      _finalize_index 220-227, which stores the metadata of an index that was loaded once more. *)
  Definition mount (f : file) (found : option index) (o : options) : res mounted * option index :=
    match (if o_recreate o then None else found) with
    | None => build f o
    | Some x =>
        match check f o x with
        | Ok warned => (Ok (mkMounted (x_rows x) false warned), Some (if o_read_only o then x else mkIndex (x_rows x) (metadata f o)))
        | Err MismatchingIndexError => (Err MismatchingIndexError, Some x)
        | Err _ => if o_read_only o then (Err RatarmountError, Some x) else build f o
        end
    end.

  (** Histories: the archive is replaced or changed, or it is mounted (and unmounted). *)
  Inductive event := Change (f : file) | Mount (o : options).
  Definition state := (file * option index)%type.
  Definition step (st : state) (e : event) : state * option (res mounted) :=
    match e with
    | Change f => ((f, snd st), None)
    | Mount o => let '(r, x) := mount (fst st) (snd st) o in ((fst st, x), Some r)
    end.
  Definition run (st : state) (h : list event) : state := fold_left (fun s e => fst (step s e)) h st.
End Reuse.
