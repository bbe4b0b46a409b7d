(** Model of how an index that is created in memory is moved to the disk when it gets large: SQLiteIndex.set_file_infos,
    SQLiteIndex.py 1060-1090, _reload_index_on_disk 674-693, open_writable 372-390.
    Simplification: the content of a database is the list of what was inserted into it (what the insertions mean is modelled in
    Index_Model.v); Connection.backup copies the content; the file on the disk is the content of the connection. *)
From Coq Require Import Ascii String.
From Verif Require Import PyBase PyStr Locate_Model.
Open Scope Z_scope.

Section Spill.
  Context {C R : Type}.
  Variable size : C -> Z.
  Variable write : str -> write_result C.
  Variable sql_usable : str -> bool.
  Variable candidates : list str.   (* self.possibleIndexFilePaths *)
  Variable minimum : Z.             (* self.indexMinimumFileCount *)

  Record database : Type := mkDatabase { content : list R; is_open : bool }.
  Record index : Type := mkIndex {
    files : filesystem (C := C);
    databases : list database;      (* all connections that were opened *)
    current : option nat;           (* self.sqlConnection *)
    path : option str;              (* self.indexFilePath *)
    prefers_memory : bool;
    inserted : Z }.                 (* self._insertedRowCount *)

  Definition set_nth (n : nat) (d : database) (l : list database) : list database := firstn n l ++ d :: skipn (S n) l.

  (** Connection.close *)
  Definition close (st : index) (n : nat) : index :=
    match nth_error (databases st) n with
    | Some d => mkIndex (files st) (set_nth n (mkDatabase (content d) false) (databases st)) (current st) (path st) (prefers_memory st) (inserted st)
    | None => st
    end.

  (** index_is_loaded, SQLiteIndex.py 1134-1150: a closed connection raises sqlite3.ProgrammingError *)
  Definition loaded (st : index) : res bool :=
    match current st with
    | None => Ok false
    | Some n => match nth_error (databases st) n with
                | Some d => if is_open d then Ok true else Err RuntimeError
                | None => Ok false
                end
    end.

  Definition create_database (st : index) (fs : filesystem) (p : str) : index :=
    mkIndex fs (databases st ++ [mkDatabase [] true]) (Some (List.length (databases st))) (Some p) (prefers_memory st) (inserted st).

  (** open_writable, SQLiteIndex.py 372-390, of an index that is not read-only *)
  Definition open_writable (st : index) : res unit * index :=
    let st' :=
      match candidates, prefers_memory st with
      | _ :: _, false =>
        match find_usable size write sql_usable (files st) candidates with
        | (Some p, fs) => create_database st fs p
        | (None, fs) => mkIndex fs (databases st) (current st) (path st) (prefers_memory st) (inserted st)
        end
      | _, _ => create_database st (files st) memory
      end in
    match loaded st' with
    | Err e => (Err e, st')
    | Ok true => (Ok tt, st')
    | Ok false => (Err RatarmountError, st')
    end.

  Definition same_path (a b : option str) : bool :=
    match a, b with Some x, Some y => str_eqb x y | None, None => true | _, _ => false end.

  (** Connection.backup followed by close of the old connection *)
  Definition backup (st : index) (old : nat) : res unit * index :=
    match nth_error (databases st) old, current st with
    | Some d, Some n =>
      if is_open d then
        (Ok tt, close (mkIndex (files st) (set_nth n (mkDatabase (content d) true) (databases st)) (current st) (path st) (prefers_memory st) (inserted st)) old)
      else (Err RuntimeError, st)
    | _, _ => (Err RuntimeError, st)
    end.

  (** _reload_index_on_disk, SQLiteIndex.py 674-693 *)
  Definition reload_on_disk (st : index) : res unit * index :=
    match path st, current st with
    | Some p, Some old =>
      if negb (str_eqb p memory) then (Ok tt, st)
      else
        match open_writable (mkIndex (files st) (databases st) (current st) (path st) false (inserted st)) with
        | (Err e, st1) => (Err e, st1)
        | (Ok _, st1) =>
          if same_path (path st1) (Some p) then
            let st2 := match current st1 with Some n => close st1 n | None => st1 end in
            (Ok tt, mkIndex (files st2) (databases st2) (Some old) (Some p) (prefers_memory st2) (inserted st2))
          else backup st1 old
        end
    | _, _ => (Ok tt, st)
    end.

  (** get_connection().executemany and _try_add_parent_folders *)
  Definition insert (st : index) (rows : list R) : res unit * index :=
    match current st with
    | None => (Err RuntimeError, st)
    | Some n =>
      match nth_error (databases st) n with
      | Some d => if is_open d
                  then (Ok tt, mkIndex (files st) (set_nth n (mkDatabase (content d ++ rows) true) (databases st)) (current st) (path st) (prefers_memory st) (inserted st))
                  else (Err RuntimeError, st)
      | None => (Err RuntimeError, st)
      end
    end.

  (** set_file_infos, SQLiteIndex.py 1060-1090 *)
  Definition set_file_infos (st : index) (rows : list R) : res unit * index :=
    match rows with
    | [] => (Ok tt, st)
    | _ =>
      let st1 := mkIndex (files st) (databases st) (current st) (path st) (prefers_memory st) (inserted st + len rows) in
      if (minimum <? inserted st1) && same_path (path st1) (Some memory) && prefers_memory st1 then
        match reload_on_disk (mkIndex (files st1) (databases st1) (current st1) (path st1) false (inserted st1)) with
        | (Err e, st2) => (Err e, st2)
        | (Ok _, st2) => insert st2 rows
        end
      else insert st1 rows
    end.

  (** All the calls while an archive is indexed. *)
  Fixpoint create_index (st : index) (batches : list (list R)) : res unit * index :=
    match batches with
    | [] => (Ok tt, st)
    | b :: bs => match set_file_infos st b with
                 | (Err e, st') => (Err e, st')
                 | (Ok _, st') => create_index st' bs
                 end
    end.

  (** a new index before it is opened for writing, SQLiteIndex.__init__ 256-305 *)
  Definition new_index (fs : filesystem) (prefer : bool) : index := mkIndex fs [] None None prefer 0.
  (** what the index contains *)
  Definition indexed (st : index) : option (list R) :=
    match current st with
    | Some n => match nth_error (databases st) n with Some d => if is_open d then Some (content d) else None | None => None end
    | None => None
    end.
End Spill.
