(** Model of /repo/ratarmount/WriteOverlay.py (WritableFolderMountSource): the write overlay.

    Paths are locations (lists of names): FUSE only passes canonical absolute paths, and [Path_Proofs] shows that those
    and locations of proper names correspond one to one.  [_split_path] (WriteOverlay.py 145-149) of a canonical path is the
    pair (parent location, last name), which determines the location, so rows of the table "files" are keyed by location
    here.

    The mount source that the overlay reads from is the union of the mounted archives and the overlay folder itself, the
    latter with the highest priority (FuseMount.py 167-176, 243-245).  The archives are a parameter [lower]: no operation of the
    overlay can change them.

    Not modelled: the ignored prefixes ([check_ignored_prefixes], WriteOverlay.py 24-47, taken to be empty), sub mount
    points, permissions, following symbolic links inside the overlay folder (they are leaves here), device nodes other
    than regular files, time stamps other than as table values. *)
From Coq Require Import Ascii String.
From Verif Require Import PyBase PyDict PyStr Path_Spec.

Definition loc_eqb (a b : location) : bool := if list_eq_dec (list_eq_dec ascii_dec) a b then true else false.

(** Is [p] the location [q] or above it? *)
Fixpoint loc_prefix (p q : location) : bool :=
  match p, q with
  | [], _ => true
  | _, [] => false
  | a :: p', b :: q' => str_eqb a b && loc_prefix p' q'
  end.

Section Overlay.
  Context {A : Type}.
  (** The byte 0. *)
  Variable zero : A.

  (** An entry of a mounted archive as far as the overlay cares. *)
  Inductive lnode := LDir | LFile (content : list A) | LLink (target : str).

  (** An entry of the overlay folder.  Files are inodes because of hard links and open descriptors. *)
  Inductive onode := ODir | OFile (ino : nat) | OLink (target : str).

  (** A row of the table "files" (WriteOverlay.py 55-68). *)
  Record row := mkRow { r_mtime : option Z; r_mode : option Z; r_uid : option Z; r_gid : option Z; r_deleted : bool }.

  Record ostate := mkO {
    o_fs : list (location * onode);
    o_ino : nat -> list A;              (** content by inode number *)
    o_next : nat;                       (** the next unused inode number *)
    o_rows : list (location * row)
  }.

  Definition oget (fs : list (location * onode)) (p : location) : option onode := dget loc_eqb fs p.
  Definition oset (fs : list (location * onode)) p n := dset loc_eqb fs p n.
  Definition odel (fs : list (location * onode)) (p : location) := filter (fun e => negb (loc_eqb p (fst e))) fs.
  Definition rget (rs : list (location * row)) (p : location) : option row := dget loc_eqb rs p.
  Definition rset (rs : list (location * row)) p r := dset loc_eqb rs p r.
  Definition rdel (rs : list (location * row)) (p : location) := filter (fun e => negb (loc_eqb p (fst e))) rs.

  (** Content of an inode; inodes are never reclaimed in the model, a descriptor keeps a deleted file readable. *)
  Definition content_of (st : ostate) (i : nat) : list A := o_ino st i.

  Definition set_ino (st : ostate) (i : nat) (c : list A) : ostate :=
    mkO (o_fs st) (upd (o_ino st) i c) (o_next st) (o_rows st).

  Definition with_fs (st : ostate) fs := mkO fs (o_ino st) (o_next st) (o_rows st).
  Definition with_rows (st : ostate) rs := mkO (o_fs st) (o_ino st) (o_next st) rs.

  Section Source.
    (** The archives below the overlay: what they contain, and the names they list. *)
    Variable lower : location -> option lnode.
    Variable lower_names : location -> list str.

    (** Entries as seen through the union of archives and overlay folder. *)
    Inductive entry := EDir | EFile (content : list A) | ELink (target : str).

    Definition entry_of_lower (n : lnode) : entry :=
      match n with LDir => EDir | LFile c => EFile c | LLink t => ELink t end.
    Definition entry_of_overlay (st : ostate) (n : onode) : entry :=
      match n with ODir => EDir | OFile i => EFile (content_of st i) | OLink t => ELink t end.

    (** [self.mountSource.lookup(path)], union.py 184-217 with the overlay folder last; the root always exists. *)
    Definition union_lookup (st : ostate) (p : location) : option entry :=
      match p with
      | [] => Some EDir
      | _ => match oget (o_fs st) p with
             | Some n => Some (entry_of_overlay st n)
             | None => option_map entry_of_lower (lower p)
             end
      end.

    Definition union_exists st p := match union_lookup st p with Some _ => true | None => false end.
    Definition union_is_dir st p := match union_lookup st p with Some EDir => true | _ => false end.

    (** Names directly below [p] in the overlay folder ([os.listdir]). *)
    Definition overlay_names (fs : list (location * onode)) (p : location) : list str :=
      flat_map (fun e => match rev (fst e) with
                         | [] => []
                         | n :: r => if loc_eqb p (rev r) then [n] else []
                         end) fs.

    (** [self.mountSource.list_mode(path)] as a set of names. *)
    Definition union_names (st : ostate) (p : location) : list str := lower_names p ++ overlay_names (o_fs st) p.

    (** [os.path.lexists(self._realpath(path))] *)
    Definition in_overlay (st : ostate) (p : location) : bool :=
      match p with [] => true | _ => match oget (o_fs st) p with Some _ => true | None => false end end.

    Definition overlay_is_dir (st : ostate) (p : location) : bool :=
      match p with [] => true | _ => match oget (o_fs st) p with Some ODir => true | _ => false end end.

    (** ** System calls on the overlay folder (the part of POSIX the code relies on) *)

    (** [os.makedirs(.., exist_ok=True)]: an existing non-directory on the way is an error. *)
    Fixpoint makedirs (fs : list (location * onode)) (done todo : location) : option (list (location * onode)) :=
      match todo with
      | [] => Some fs
      | n :: r =>
          let p := done ++ [n] in
          match oget fs p with
          | Some ODir => makedirs fs p r
          | Some _ => None
          | None => makedirs (oset fs p ODir) p r
          end
      end.

    (** [open(path, 'wb')] and [os.open(path, O_RDWR | O_CREAT | O_TRUNC)]: returns the inode. *)
    Definition os_create (st : ostate) (p : location) : res nat * ostate :=
      if negb (overlay_is_dir st (removelast p)) then (Err ENOENT, st)
      else match p with
           | [] => (Err EISDIR, st)
           | _ => match oget (o_fs st) p with
                  | Some (OFile i) => (Ok i, set_ino st i [])
                  | Some ODir => (Err EISDIR, st)
                  | Some (OLink _) => (Err EIO, st)
                  | None => let i := o_next st in
                            (Ok i, mkO (oset (o_fs st) p (OFile i)) (upd (o_ino st) i []) (S i) (o_rows st))
                  end
           end.

    (** [os.mkdir], [os.symlink], [os.link], [os.mknod] of a regular file: the name must be free. *)
    Definition os_add (st : ostate) (p : location) (n : onode) : res unit * ostate :=
      if negb (overlay_is_dir st (removelast p)) then (Err ENOENT, st)
      else if in_overlay st p then (Err EEXIST, st)
      else (Ok tt, with_fs st (oset (o_fs st) p n)).

    Definition os_unlink (st : ostate) (p : location) : res unit * ostate :=
      match p with
      | [] => (Err EISDIR, st)
      | _ => match oget (o_fs st) p with
             | Some ODir | None => (Err EISDIR, st)
             | Some _ => (Ok tt, with_fs st (odel (o_fs st) p))
             end
      end.

    Definition os_rmdir (st : ostate) (p : location) : res unit * ostate :=
      match oget (o_fs st) p with
      | Some ODir => match overlay_names (o_fs st) p with
                     | [] => (Ok tt, with_fs st (odel (o_fs st) p))
                     | _ => (Err ENOTEMPTY, st)
                     end
      | _ => (Err ENOTDIR, st)
      end.

    (** [os.rename]: a directory takes everything below it along.  The root of the overlay folder cannot be renamed or
        replaced (EBUSY is errno 16). *)
    Definition moved (old new : location) (e : location * onode) : location * onode :=
      if loc_prefix old (fst e) then (new ++ skipn (length old) (fst e), snd e) else e.

    Definition os_rename (st : ostate) (old new : location) : res unit * ostate :=
      if loc_eqb old [] || loc_eqb new [] then (Err (OSErr 16), st)
      else match oget (o_fs st) old with
      | None => (Err ENOENT, st)
      | Some n =>
          if negb (overlay_is_dir st (removelast new)) then (Err ENOENT, st)
          else if loc_eqb old new then (Ok tt, st)
          else match n with
               | ODir =>
                   if loc_prefix old new then (Err EINVAL, st)
                   else match oget (o_fs st) new with
                        | Some ODir => match overlay_names (o_fs st) new with
                                       | [] => (Ok tt, with_fs st (map (moved old new) (odel (o_fs st) new)))
                                       | _ => (Err ENOTEMPTY, st)
                                       end
                        | Some _ => (Err ENOTDIR, st)
                        | None => (Ok tt, with_fs st (map (moved old new) (o_fs st)))
                        end
               | _ => match oget (o_fs st) new with
                      | Some ODir => (Err EISDIR, st)
                      | _ => (Ok tt, with_fs st (oset (odel (odel (o_fs st) old) new) new n))
                      end
               end
      end.

    (** [content[:n]] extended with zeros to length [n]: the effect of [os.truncate]. *)
    Definition resized (n : nat) (c : list A) : list A := firstn n c ++ repeat zero (n - length c).

    Definition os_truncate (st : ostate) (p : location) (n : nat) : res unit * ostate :=
      match oget (o_fs st) p with
      | Some (OFile i) => (Ok tt, set_ino st i (resized n (content_of st i)))
      | _ => (Err ENOENT, st)
      end.

    (** [os.lseek(fd, offset, 0)] then [os.write(fd, data)]: writing past the end leaves zeros in between; no data,
        no change. *)
    Definition spliced (c : list A) (offset : nat) (data : list A) : list A :=
      match data with
      | [] => c
      | _ => firstn offset (resized (max offset (length c)) c) ++ data ++ skipn (offset + length data) c
      end.

    (** ** The overlay *)

    (** [_ensure_parent_exists], WriteOverlay.py 155-161 *)
    Definition ensure_parent_exists (st : ostate) (p : location) : res unit * ostate :=
      let parent := removelast p in
      if negb (in_overlay st parent) && union_is_dir st parent
      then match makedirs (o_fs st) [] parent with
           | Some fs => (Ok tt, with_fs st fs)
           | None => (Err EEXIST, st)
           end
      else (Ok tt, st).

    (** [self.mountSource.open(self.mountSource.lookup(path))]: what can be read from it.  For a file of the overlay folder
        the object reads the live file, so what it yields depends on when it is read. *)
    Inductive opened := FromLower (c : list A) | FromOverlay (ino : nat).

    Definition union_open (st : ostate) (p : location) : option opened :=
      match p with
      | [] => None
      | _ => match oget (o_fs st) p with
             | Some (OFile i) => Some (FromOverlay i)
             | Some _ => None
             | None => match lower p with Some (LFile c) => Some (FromLower c) | _ => None end
             end
      end.

    Definition read_opened (st : ostate) (o : opened) : list A :=
      match o with FromLower c => c | FromOverlay i => content_of st i end.

    (** Opening [source] as source, opening [target] for writing (which empties it), then [shutil.copyfileobj]:
        WriteOverlay.py 165-169 and 341-342. *)
    Definition copy_to (st : ostate) (source target : location) : res unit * ostate :=
      match union_open st source with
      | None => (Err EIO, st)
      | Some o => match os_create st target with
                  | (Err e, st1) => (Err e, st1)
                  | (Ok i, st1) => (Ok tt, set_ino st1 i (read_opened st1 o))
                  end
      end.

    (** [_ensure_file_is_modifiable], WriteOverlay.py 163-169 *)
    Definition ensure_file_is_modifiable (st : ostate) (p : location) : res unit * ostate :=
      match ensure_parent_exists st p with
      | (Err e, st1) => (Err e, st1)
      | (Ok _, st1) => copy_to st1 p p
      end.

    (** [_open], WriteOverlay.py 171-181: insert a row unless there is one, then clear the deleted mark. *)
    Definition open_row (st : ostate) (p : location) (mode : Z) : res unit * ostate :=
      match ensure_parent_exists st p with
      | (Err e, st1) => (Err e, st1)
      | (Ok _, st1) =>
          let r := match rget (o_rows st1) p with
                   | Some r => mkRow (r_mtime r) (r_mode r) (r_uid r) (r_gid r) false
                   | None => mkRow None (Some mode) None None false
                   end in
          (Ok tt, with_rows st1 (rset (o_rows st1) p r))
      end.

    (** [_mark_as_deleted], WriteOverlay.py 183-192 *)
    Definition mark_as_deleted (st : ostate) (p : location) : ostate :=
      if union_exists st p
      then with_rows st (rset (o_rows st) p (mkRow None None None None true))
      else with_rows st (rdel (o_rows st) p).

    (** [list_deleted], WriteOverlay.py 194-202, without the names of the database files. *)
    Definition list_deleted (st : ostate) (p : location) : list str :=
      flat_map (fun e => match rev (fst e) with
                         | [] => []
                         | n :: r => if loc_eqb p (rev r) && r_deleted (snd e) then [n] else []
                         end) (o_rows st).

    (** [is_deleted], WriteOverlay.py 204-209 *)
    Definition is_deleted (st : ostate) (p : location) : bool :=
      match rget (o_rows st) p with Some r => r_deleted r | None => false end.

    (** What a metadata update sets. *)
    Inductive change := SetMode (m : Z) | SetOwner (uid gid : option Z) | SetMtime (t : Z).

    Definition apply_change (r : row) (c : change) : row :=
      match c with
      | SetMode m => mkRow (r_mtime r) (Some m) (r_uid r) (r_gid r) (r_deleted r)
      | SetOwner u g => mkRow (r_mtime r) (r_mode r) (match u with Some x => Some x | None => r_uid r end)
                              (match g with Some x => Some x | None => r_gid r end) (r_deleted r)
      | SetMtime t => mkRow (Some t) (r_mode r) (r_uid r) (r_gid r) (r_deleted r)
      end.

    (** The attributes (mtime, mode, uid, gid) the union reports for an existing path. *)
    Variable attributes : ostate -> location -> Z * Z * Z * Z.

    (** [_init_file_metadata] if there is no row yet: WriteOverlay.py 234-247, 252-257 *)
    Definition row_for (st : ostate) (p : location) : res row :=
      match rget (o_rows st) p with
      | Some r => Ok r
      | None => if union_exists st p
                then let '(t, m, u, g) := attributes st p in Ok (mkRow (Some t) (Some m) (Some u) (Some g) false)
                else Err ENOENT
      end.

    (** [chmod], [chown], [utimens]: WriteOverlay.py 294-321 over [_set_file_metadata] 249-269.  The row is initialised before
        [_set_metadata] rejects an empty update (chown with two ids of -1).  Applying the change to the file in the overlay
        folder as well has no further effect on what the mount shows and is left out. *)
    Definition set_attributes (st : ostate) (p : location) (c : change) : res unit * ostate :=
      match row_for st p with
      | Err e => (Err e, st)
      | Ok r =>
          match c with
          | SetOwner None None => (Err ValueError, with_rows st (rset (o_rows st) p r))
          | _ => (Ok tt, with_rows st (rset (o_rows st) p (apply_change r c)))
          end
      end.

    (** [update_file_info], WriteOverlay.py 271-290 *)
    Definition update_file_info (st : ostate) (p : location) (i : Z * Z * Z * Z) : Z * Z * Z * Z :=
      match rget (o_rows st) p with
      | None => i
      | Some r => let '(t, m, u, g) := i in
                  let def o d := match o with Some x => x | None => d end in
                  (def (r_mtime r) t, def (r_mode r) m, def (r_uid r) u, def (r_gid r) g)
      end.

    (** [rename], WriteOverlay.py 323-345 *)
    Definition rename (st : ostate) (old new : location) : res unit * ostate :=
      if negb (union_exists st old) || is_deleted st old then (Err ENOENT, st)
      else
        let st1 := with_rows st (rdel (o_rows st) new) in
        match row_for st1 old with
        | Err e => (Err e, st1)
        | Ok r =>
            let st2 := with_rows st1 (rset (rdel (o_rows st1) old) new r) in
            match ensure_parent_exists st2 new with
            | (Err e, st3) => (Err e, st3)
            | (Ok _, st3) =>
                if in_overlay st3 old then os_rename st3 old new
                else match copy_to st3 old new with
                     | (Err e, st4) => (Err e, st4)
                     | (Ok _, st4) => (Ok tt, mark_as_deleted st4 old)
                     end
            end
        end.

    (** [symlink], WriteOverlay.py 349-352 *)
    Definition symlink (st : ostate) (target : location) (source : str) : res unit * ostate :=
      os_add st target (OLink source).

    (** [link], WriteOverlay.py 354-364; EXDEV is errno 18. *)
    Definition link (st : ostate) (target source : location) : res unit * ostate :=
      if negb (in_overlay st source) && union_exists st source then (Err (OSErr 18), st)
      else match (match source with [] => Some ODir | _ => oget (o_fs st) source end) with
           | Some (OFile i) => os_add st target (OFile i)
           | Some (OLink t) => os_add st target (OLink t)
           | Some ODir => (Err (OSErr 1), st)
           | None => (Err ENOENT, st)
           end.

    (** [mkdir], WriteOverlay.py 368-372; the type bits are part of [mode] here. *)
    Definition mkdir (st : ostate) (p : location) (mode : Z) : res unit * ostate :=
      match open_row st p mode with
      | (Err e, st1) => (Err e, st1)
      | (Ok _, st1) => os_add st1 p ODir
      end.

    Definition subset (a b : list str) : bool := forallb (fun x => existsb (str_eqb x) b) a.

    (** [rmdir], WriteOverlay.py 374-393.  The mark is set in a [finally] clause, also when removing the folder fails. *)
    Definition rmdir (st : ostate) (p : location) : res unit * ostate :=
      if negb (union_exists st p) || is_deleted st p then (Err ENOENT, st)
      else if negb (subset (union_names st p) (list_deleted st p)) then (Err ENOTEMPTY, st)
      else
        let '(r, st1) := if in_overlay st p then os_rmdir st p else (Ok tt, st) in
        (match r with Ok _ => Ok tt | Err _ => Err EIO end, mark_as_deleted st1 p).

    (** [open], WriteOverlay.py 397-409: returns the inode behind the descriptor. *)
    Definition open_overlay (st : ostate) (p : location) (for_writing : bool) : res nat * ostate :=
      let '(r, st1) :=
        if in_overlay st p then (Ok tt, st)
        else if negb (union_exists st p) then (Err ENOENT, st)
        else if for_writing then ensure_file_is_modifiable st p else (Ok tt, st) in
      match r with
      | Err e => (Err e, st1)
      | Ok _ => match p with
                | [] => (Err EISDIR, st1)
                | _ => match oget (o_fs st1) p with
                       | Some (OFile i) => (Ok i, st1)
                       | Some ODir => (Err EISDIR, st1)
                       | Some (OLink _) => (Err EIO, st1)
                       | None => (Err ENOENT, st1)
                       end
                end
      end.

    (** [create], WriteOverlay.py 411-418 *)
    Definition create (st : ostate) (p : location) (mode : Z) : res nat * ostate :=
      match open_row st p mode with
      | (Err e, st1) => (Err e, st1)
      | (Ok _, st1) => os_create st1 p
      end.

    (** [unlink], WriteOverlay.py 420-437 *)
    Definition unlink (st : ostate) (p : location) : res unit * ostate :=
      if negb (union_exists st p) || is_deleted st p then (Err ENOENT, mark_as_deleted st p)
      else
        let '(r, st1) := if in_overlay st p then os_unlink st p else (Ok tt, st) in
        (match r with Ok _ => Ok tt | Err _ => Err EIO end, mark_as_deleted st1 p).

    (** [mknod] of a regular file, WriteOverlay.py 439-443 *)
    Definition mknod (st : ostate) (p : location) : res unit * ostate :=
      match ensure_parent_exists st p with
      | (Err e, st1) => (Err e, st1)
      | (Ok _, st1) =>
          match os_add st1 p (OFile (o_next st1)) with
          | (Ok _, st2) => (Ok tt, mkO (o_fs st2) (upd (o_ino st2) (o_next st2) []) (S (o_next st2)) (o_rows st2))
          | r => r
          end
      end.

    (** [truncate], WriteOverlay.py 445-449 *)
    Definition truncate (st : ostate) (p : location) (n : nat) : res unit * ostate :=
      match ensure_file_is_modifiable st p with
      | (Err e, st1) => (Err e, st1)
      | (Ok _, st1) => os_truncate st1 p n
      end.

    (** [write], WriteOverlay.py 453-457, on the descriptor of inode [i]. *)
    Definition write (st : ostate) (i : nat) (data : list A) (offset : nat) : res unit * ostate :=
      (Ok tt, set_ino st i (spliced (content_of st i) offset data)).

    (** ** What the mount shows *)

    (** [FuseMount._lookup], FuseMount.py 656-674 *)
    Definition visible (st : ostate) (p : location) : option entry :=
      if is_deleted st p then None else union_lookup st p.

    (** The attributes [FuseMount.getattr] reports: FuseMount.py 656-674, 713-736 *)
    Definition getattr (st : ostate) (p : location) : option (Z * Z * Z * Z) :=
      match visible st p with
      | None => None
      | Some _ => Some (update_file_info st p (attributes st p))
      end.

    (** [FuseMount.readdir] without "." and "..": FuseMount.py 739-769 *)
    Definition readdir (st : ostate) (p : location) : list str :=
      filter (fun n => negb (existsb (str_eqb n) (list_deleted st p))) (union_names st p).

    (** ** Histories *)

    Inductive op :=
    | OpCreate (p : location) (mode : Z)
    | OpMkdir (p : location) (mode : Z)
    | OpMknod (p : location)
    | OpSymlink (target : location) (source : str)
    | OpLink (target source : location)
    | OpUnlink (p : location)
    | OpRmdir (p : location)
    | OpRename (old new : location)
    | OpTruncate (p : location) (n : nat)
    | OpOpenWrite (p : location)
    | OpWrite (i : nat) (data : list A) (offset : nat)
    | OpAttributes (p : location) (c : change).

    Definition drop {X} (r : res X * ostate) : res unit * ostate :=
      (match fst r with Ok _ => Ok tt | Err e => Err e end, snd r).

    Definition step (st : ostate) (o : op) : res unit * ostate :=
      match o with
      | OpCreate p m => drop (create st p m)
      | OpMkdir p m => mkdir st p m
      | OpMknod p => mknod st p
      | OpSymlink t s => symlink st t s
      | OpLink t s => link st t s
      | OpUnlink p => unlink st p
      | OpRmdir p => rmdir st p
      | OpRename a b => rename st a b
      | OpTruncate p n => truncate st p n
      | OpOpenWrite p => drop (open_overlay st p true)
      | OpWrite i d o => write st i d o
      | OpAttributes p c => set_attributes st p c
      end.

    (** The state after a history, whatever fails in it. *)
    Definition run (st : ostate) (h : list op) : ostate := fold_left (fun s o => snd (step s o)) h st.

    (** An empty overlay folder. *)
    Definition fresh_overlay : ostate := mkO [] (fun _ => []) 0 [].
  End Source.
End Overlay.
