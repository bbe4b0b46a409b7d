(** Model of the file handles of /repo/ratarmount/FuseMount.py on top of the model of the write overlay.

    Not modelled: the numbers of operating system descriptors (a descriptor is the inode it refers to; reuse of a number after
    closing is outside the model), the control interface (see [Command_Model]), O_APPEND and O_WRONLY restrictions of
    descriptors, backends that fail to open or read (an archive member opens and reads as its content). *)
From Coq Require Import Ascii String.
From Verif Require Import PyBase PyDict PyStr Path_Spec Overlay_Model.

Section Fuse.
  Context {A : Type}.
  Variable zero : A.
  Variable lower : location -> option (@lnode A).
  Variable lower_names : location -> list str.
  Variable attributes : @ostate A -> location -> Z * Z * Z * Z.
  (** Is there a write overlay? *)
  Variable has_overlay : bool.

  (** What [openedFiles] holds: a file object of an archive member, a file object of a file in the overlay folder opened
      for reading, or a descriptor for writing (an int). *)
  Inductive hfile := HMember (content : list A) | HReader (ino : nat) | HFd (ino : nat).

  (** [(flags, handle)] of [_add_new_handle]; of the flags only whether they ask for writing matters.  [h_closed]: has the
      file object or descriptor been closed?  [release] leaves the entry in place (FuseMount.py 794-805). *)
  Record hentry := mkH { h_write : bool; h_file : hfile; h_closed : bool }.

  Record fstate := mkF { f_over : @ostate A; f_last : nat; f_open : list (nat * hentry) }.

  Definition with_over st o := mkF o (f_last st) (f_open st).
  Definition hget (st : fstate) (fh : nat) : option hentry := dget Nat.eqb (f_open st) fh.
  Definition hset (st : fstate) (fh : nat) (h : hentry) : fstate :=
    mkF (f_over st) (f_last st) (dset Nat.eqb (f_open st) fh h).

  (** [_add_new_handle], FuseMount.py 649-654 *)
  Definition add_new_handle (st : fstate) (f : hfile) (w : bool) : nat * fstate :=
    let n := S (f_last st) in
    (n, mkF (f_over st) n (dset Nat.eqb (f_open st) n (mkH w f false))).

  (** [_lookup], FuseMount.py 656-674, as far as opening needs it. *)
  Definition shown (st : fstate) (p : location) : option entry :=
    if has_overlay then visible lower (f_over st) p else option_map entry_of_lower (lower p).

  (** [self.mountSource.open(fileInfo)] for what [_lookup] found. *)
  Definition source_open (st : fstate) (p : location) : option hfile :=
    if has_overlay
    then match union_open lower (f_over st) p with
         | Some (FromLower c) => Some (HMember c)
         | Some (FromOverlay i) => Some (HReader i)
         | None => None
         end
    else match lower p with Some (LFile c) => Some (HMember c) | _ => None end.

  (** [open], FuseMount.py 776-791 *)
  Definition fopen (st : fstate) (p : location) (w : bool) : res nat * fstate :=
    match shown st p with
    | None => (Err ENOENT, st)
    | Some _ => match source_open st p with
                | None => (Err EIO, st)
                | Some f => let '(n, st1) := add_new_handle st f w in (Ok n, st1)
                end
    end.

  (** [create], FuseMount.py 840-844: the flags are stored as 0. *)
  Definition fcreate (st : fstate) (p : location) (mode : Z) : res nat * fstate :=
    if has_overlay
    then match create lower (f_over st) p mode with
         | (Err e, o) => (Err e, with_over st o)
         | (Ok i, o) => let '(n, st1) := add_new_handle (with_over st o) (HFd i) false in (Ok n, st1)
         end
    else (Err EROFS, st).

  (** [release], FuseMount.py 793-805: closes, but keeps the entry.  Closing a descriptor twice is an error (EBADF is
      errno 9), closing a file object twice is not. *)
  Definition frelease (st : fstate) (fh : nat) : res unit * fstate :=
    match hget st fh with
    | None => (Err ESTALE, st)
    | Some h => match h_file h, h_closed h with
                | HFd _, true => (Err (OSErr 9), st)
                | _, _ => (Ok tt, hset st fh (mkH (h_write h) (h_file h) true))
                end
    end.

  (** What is read from an open file. *)
  Definition file_content (st : fstate) (f : hfile) : list A :=
    match f with HMember c => c | HReader i | HFd i => content_of (f_over st) i end.

  Definition slice (c : list A) (size offset : nat) : list A := firstn size (skipn offset c).

  (** [read], FuseMount.py 807-831: reading from a closed object is an error; an unknown handle makes it look up the path. *)
  Definition fread (st : fstate) (p : location) (size offset fh : nat) : res (list A) :=
    match hget st fh with
    | Some h => if h_closed h then Err ValueError else Ok (slice (file_content st (h_file h)) size offset)
    | None => match shown st p with
              | None => Err ENOENT
              | Some _ => match source_open st p with
                          | None => Err EIO
                          | Some f => Ok (slice (file_content st f) size offset)
                          end
              end
    end.

  Definition is_fd (f : hfile) : bool := match f with HFd _ => true | _ => false end.

  (** The second half of [write], FuseMount.py 874-876 *)
  Definition write_fd (st : fstate) (data : list A) (offset fh : nat) : res unit * fstate :=
    match hget st fh with
    | Some h => match h_file h with
                | HFd i => if h_closed h then (Err (OSErr 9), st)
                           else let '(r, o) := write zero (f_over st) i data offset in (r, with_over st o)
                | _ => (Err EROFS, st)
                end
    | None => (Err EROFS, st)
    end.

  (** [write], FuseMount.py 857-876: an object opened for reading is closed and replaced by a descriptor from the overlay,
      which is opened by path. *)
  Definition fwrite (st : fstate) (p : location) (data : list A) (offset fh : nat) : res unit * fstate :=
    match hget st fh with
    | None => (Err KeyError, st)
    | Some h =>
        if negb has_overlay then (Err EROFS, st)
        else if is_fd (h_file h) then write_fd st data offset fh
        else if h_write h
        then match open_overlay lower (f_over st) p true with
             | (Err e, o) => (Err e, with_over (hset st fh (mkH true (h_file h) true)) o)
             | (Ok i, o) => write_fd (with_over (hset st fh (mkH true (HFd i) false)) o) data offset fh
             end
        else (Err EROFS, st)
    end.

  (** The other calls go to the overlay (FuseMount.py 264-284, 847-855). *)
  Definition fother (st : fstate) (o : @op A) : res unit * fstate :=
    if has_overlay
    then let '(r, s) := step zero lower lower_names attributes (f_over st) o in (r, with_over st s)
    else (Err EROFS, st).

  (** ** Histories *)

  Inductive call :=
  | FOpen (p : location) (w : bool)
  | FCreate (p : location) (mode : Z)
  | FRead (p : location) (size offset fh : nat)
  | FWrite (p : location) (data : list A) (offset fh : nat)
  | FRelease (fh : nat)
  | FOther (o : @op A).

  Inductive answer := RHandle (n : nat) | RData (d : list A) | RDone.

  Definition answered {X} (f : X -> answer) (r : res X) : res answer :=
    match r with Ok x => Ok (f x) | Err e => Err e end.

  Definition serve (st : fstate) (c : call) : res answer * fstate :=
    match c with
    | FOpen p w => let '(r, s) := fopen st p w in (answered RHandle r, s)
    | FCreate p m => let '(r, s) := fcreate st p m in (answered RHandle r, s)
    | FRead p n o fh => (answered RData (fread st p n o fh), st)
    | FWrite p d o fh => let '(r, s) := fwrite st p d o fh in (answered (fun _ => RDone) r, s)
    | FRelease fh => let '(r, s) := frelease st fh in (answered (fun _ => RDone) r, s)
    | FOther o => let '(r, s) := fother st o in (answered (fun _ => RDone) r, s)
    end.

  (** The answers and the final state of a history. *)
  Fixpoint serve_all (st : fstate) (h : list call) : list (res answer) * fstate :=
    match h with
    | [] => ([], st)
    | c :: r => let '(a, s) := serve st c in let '(l, s') := serve_all s r in (a :: l, s')
    end.

  Definition mounted : fstate := mkF fresh_overlay 0 [].
End Fuse.
