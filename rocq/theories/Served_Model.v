(** Model of a TAR archive that is mounted read-only with `ratarmount archive.tar folder`: the requests of the kernel go to FuseMount
    (/repo/ratarmount/FuseMount.py 646-674, 712-736, 776-830), from there to the FileVersionLayer (Version_Model.v; its [open] is
    versioning.py 236-244) and to the SQLiteIndexedTar (Index_Model.v for the look-up, TarRead_Model.v and Stencil_Model.v for open files).
    All open files share one file object of the archive; its position is part of the state.

    Simplifications: members that are sparse are not opened here (see Sparse_Model.v); the requests are served one after the other (see
    Conc_Model.v for the lock); a read with a handle that was never given out, which the kernel does not send, is an error. *)
From Coq Require Import Ascii String.
From Verif Require Import PyBase PyDict PyStr FileInfo Union_Model Index_Model Version_Model Stencil_Model TarRead_Model Front_Spec Front_Model.
Local Open Scope Z_scope.

(** errno.ESTALE of Linux. *)
Definition ESTALE_exn : exn := OSErr 116.

Section Served.
  Context {A : Type}.
  Variables now uid gid : Z.
  Variable rows : list row.
  Variable bytes : list A.

  (** The order in which SQLite returns rows may be different for every request. *)
  Definition order : Type := list row -> list row.

  (** The mount source of the archive: SQLiteIndexMountSource.lookup, versions, list and list_mode *)
  Definition tar_source (sh : order) : source tar_data :=
    mkSource (lookup now uid gid sh rows) (versions now uid gid sh rows)
      (fun p => match index_list sh rows p with Some d => LDict d | None => LNone end)
      (fun p => match Index_Model.list_mode sh rows p with Some d => LDict d | None => LNone end) true.

  (** [FileVersionLayer.lookup] with the result for a .versions folder, versioning.py 209-222; None is the marker VERSIONS_FOLDER. *)
  Definition served_info (i : vinfo tar_data) : finfo tar_data :=
    match i with VersionOf i => i | VersionsFolder mtime uid gid => mkInfo 0 mtime (Z.lor 511 S_IFDIR) [] uid gid [] end.

  (** [FuseMount._lookup] without overlay, FuseMount.py 656-665.  [get_mount_source] of the archive gives '/'. *)
  Definition served_lookup (sh : order) (path : str) : res (vinfo tar_data) :=
    match v_lookup (tar_source sh) (fun _ => $"/") path with
    | Err e => Err e
    | Ok None => Err ENOENT
    | Ok (Some i) => Ok i
    end.

  (** An open file; None after [release], which closes it but keeps it in the table, FuseMount.py 795-808. *)
  Record kstate := mkK { k_last : Z; k_open : list (Z * option sfile); k_pos : nat -> Z }.
  Definition mounted : kstate := mkK 0 [] (fun _ => 0).

  Inductive request := KStat (path : str) | KOpen (path : str) | KRead (path : str) (size offset fh : Z) | KRelease (fh : Z).
  Inductive reply := RStat (s : fstat) | RHandle (fh : Z) | RData (d : list A) | RDone | RErr (e : exn).

  (** The file the StenciledFile reads from. *)
  Definition the_file (f : nat) : list A := match f with O => bytes | _ => [] end.

  (** FuseMount.getattr 712-736, open 776-790 with _add_new_handle 646-654, read 810-818 and release 795-808 *)
  Definition serve (st : kstate) (r : order * request) : reply * kstate :=
    let sh := fst r in
    match snd r with
    | KStat path =>
        match served_lookup sh path with
        | Err e => (RErr e, st)
        | Ok v => let i := served_info v in
                  (RStat (mkStat (fi_size i) (fi_mode i) (fi_uid i) (fi_gid i) (fi_mtime i * 1000000000) 1 MINIMUM_BLOCK_SIZE (ceil_div (fi_size i) 512)), st)
        end
    | KOpen path =>
        match served_lookup sh path with
        | Err e => (RErr e, st)
        | Ok (VersionsFolder _ _ _) => (RErr EIO, st)
        | Ok (VersionOf i) =>
            match open_member i with
            | None => (RErr EIO, st)
            | Some cuts =>
                match sf_init cuts with
                | Err _ => (RErr EIO, st)
                | Ok s => let fh := k_last st + 1 in (RHandle fh, mkK fh (dset Z.eqb (k_open st) fh (Some s)) (k_pos st))
                end
            end
        end
    | KRead path size offset fh =>
        match dget Z.eqb (k_open st) fh with
        | None => (RErr RuntimeError, st)
        | Some None => (RErr ValueError, st)
        | Some (Some s) =>
            match sf_seek s offset SEEK_SET with
            | (Err e, s1) => (RErr e, mkK (k_last st) (dset Z.eqb (k_open st) fh (Some s1)) (k_pos st))
            | (Ok _, s1) =>
                let '(d, s2, pos) := sf_read the_file s1 (k_pos st) size in
                ((match d with Ok d => RData d | Err e => RErr e end), mkK (k_last st) (dset Z.eqb (k_open st) fh (Some s2)) pos)
            end
        end
    | KRelease fh =>
        match dget Z.eqb (k_open st) fh with
        | None => (RErr ESTALE_exn, st)
        | Some _ => (RDone, mkK (k_last st) (dset Z.eqb (k_open st) fh None) (k_pos st))
        end
    end.

  Fixpoint serve_all (st : kstate) (h : list (order * request)) : kstate :=
    match h with [] => st | r :: h => serve_all (snd (serve st r)) h end.
End Served.
