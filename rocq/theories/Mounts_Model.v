(** Model of the construction and destruction of a mount: FuseMount.__init__ (/repo/ratarmount/FuseMount.py 115-297), FuseMount._close
    (307-414), and of the constructor of the write overlay (/repo/ratarmount/WriteOverlay.py 73-100).

    Folders of the real file system are locations; [realpath] (os.path.realpath) is fixed for the time of the call: symbolic links do not
    change while the mount is set up, and a mount point that is a dangling link is not modelled.  A path exists if its real path does.

    Not modelled: the temporary log file of the control interface, the command and output files themselves (Command_Model.v), options
    that are only forwarded, the layers for recursive mounting and versions put on top of the result (Auto_Model.v, Version_Model.v),
    the folder cache of the union (C19), and threads. *)
From Coq Require Import Ascii String.
From Verif Require Import PyBase PyDict PyStr Path_Spec FileInfo Union_Model Subvol_Model Multi_Model Locate_Model Overlay_Model.

(** ** The folders of the real file system *)
Inductive kind := KDir | KFile.
Definition folders := list (location * kind).
Definition fget (fs : folders) (p : location) : option kind := match p with [] => Some KDir | _ => dget loc_eqb fs p end.
Definition fset (fs : folders) (p : location) (k : kind) : folders := dset loc_eqb fs p k.
Definition fdel (fs : folders) (p : location) : folders := filter (fun e => negb (loc_eqb p (fst e))) fs.

(** os.makedirs(path, exist_ok=True) *)
Fixpoint mkdirs (fs : folders) (done todo : location) : res folders :=
  match todo with
  | [] => Ok fs
  | n :: r =>
      let p := done ++ [n] in
      match fget fs p with
      | Some KDir => mkdirs fs p r
      | Some KFile => Err EEXIST
      | None => mkdirs (fset fs p KDir) p r
      end
  end.

(** os.mkdir of a path that does not exist *)
Definition make_folder (fs : folders) (p : location) : res folders :=
  match fget fs (removelast p) with
  | Some KDir => Ok (fset fs p KDir)
  | Some KFile => Err ENOTDIR
  | None => Err ENOENT
  end.

(** open(path, "w+") *)
Definition make_file (fs : folders) (p : location) : res folders :=
  match fget fs p with
  | Some KDir => Err EISDIR
  | Some KFile => Ok fs
  | None => match fget fs (removelast p) with
            | Some KDir => Ok (fset fs p KFile)
            | _ => Err ENOENT
            end
  end.

(** Is there anything in the folder? *)
Definition occupied (fs : folders) (p : location) : bool :=
  existsb (fun e => match rev (fst e) with [] => false | _ :: r => loc_eqb p (rev r) end) fs.

(** os.path.basename *)
Definition base_name (path : str) : str := match rsplit1 slash path with Some (_, name) => name | None => path end.

Section Mounts.
  Context {U : Type}.

  (** A mount source as opened by open_mount_source: the folder it shows, if it is one (FolderMountSource.root), and its view. *)
  Definition opened := (option str * source U)%type.

  Variable realpath : str -> location.
  (** open_mount_source(path, ..) *)
  Variable open_source : str -> res opened.
  (** The layer with the control files behind its prefix, and an empty SubvolumesMountSource: FuseMount.py 227-239. *)
  Variables control_layer no_subvolumes : source U.
  (** tempfile.TemporaryDirectory *)
  Variable temporary : location.

  (** The arguments of the constructor. *)
  Record request := mkRequest {
    q_inputs : list str;        (** pathToMount *)
    q_point : str;              (** mountPoint *)
    q_overlay : str;            (** options['writeOverlay'], empty if there is none *)
    q_log : str;                (** options['logFile'], empty if there is none *)
    q_control : bool;           (** options['controlInterface'] *)
    q_side_by_side : bool       (** options['disableUnionMount'] *)
  }.

  (** What _close has to undo: the temporary overlay folder, the created mount point. *)
  Record held := mkHeld { h_temporary : option location; h_created : option location }.

  Inductive root := Whole (s : opened) | United (l : list opened) | Beside (n : node opened).

  (** os.path.exists(x) or '://' in x, FuseMount.py 157 *)
  Definition kept (fs : folders) (x : str) : bool := match fget fs (realpath x) with Some _ => true | None => contains $"://" x end.

  (** The loop over the paths, FuseMount.py 179-205; [bound]: self.mountPointFd is not None. *)
  Fixpoint open_all (fs : folders) (point : location) (bound : bool) (paths : list str) : res (list (str * opened)) :=
    match paths with
    | [] => Ok []
    | p :: r =>
        if negb (loc_eqb (realpath p) point)
        then bind (open_source p) (fun s => bind (open_all fs point bound r) (fun l => Ok ((base_name p, s) :: l)))
        else if bound then open_all fs point bound r
        else bind (open_source p) (fun s =>
             match fget fs point with
             | None => Err ENOENT
             | Some _ => bind (open_all fs point true r) (fun l => Ok ((base_name p, s) :: l))
             end)
    end.

  (** The control interface, FuseMount.py 227-242 *)
  Definition with_control_layer (control : bool) (l : list (str * opened)) : list (str * opened) :=
    if control
    then (match l with [] => [($"/", (None, no_subvolumes))] | _ => l end) ++ [($"/", (None, control_layer))]
    else l.

  (** FuseMount.py 247-249 over _create_multi_mount 461-476 *)
  Definition compose (side_by_side : bool) (l : list (str * opened)) : res root :=
    match l with
    | [] => Err ValueError
    | [(_, s)] => Ok (Whole s)
    | _ => if side_by_side then bind (create_multi_mount l) (fun n => Ok (Beside n)) else Ok (United (map snd l))
    end.

  (** What the mount shows at a path: the entry, and what it comes from. *)
  Definition root_lookup (r : root) (path : str) (v : Z) : option (option str * finfo U) :=
    match r with
    | Whole s => option_map (pair (fst s)) (s_lookup (snd s) path v)
    | United l => match Union_Model.union_lookup (map snd l) [] 0 path v with
                  | Some (Found i info) => match nth_error l i with Some s => Some (fst s, info) | None => None end
                  | _ => None
                  end
    | Beside n => match find_mount_source path n with
                  | Some (AtMount _ subpath s) => option_map (pair (fst s)) (s_lookup (snd s) subpath v)
                  | _ => None
                  end
    end.

  (** hiddenDatabaseName, WriteOverlay.py 71 *)
  Definition database : str := $".ratarmount.overlay.sqlite".

  (** The constructor of WritableFolderMountSource, WriteOverlay.py 73-100: the folder, and the check that the mount shows it with top
      priority. *)
  Definition open_overlay (fs : folders) (r : root) (path : location) : res unit :=
    match fget fs path with
    | Some KFile => Err ValueError
    | _ =>
        match root_lookup r (slash :: database) 0 with
        | Some (Some folder, info) =>
            if is_reg_mode (fi_mode info) && str_eqb folder (written path) then Ok tt else Err AssertionError
        | _ => Err AssertionError
        end
    end.

  (** The overlay folder, FuseMount.py 165-176: its location and the temporary folder, if it is one. *)
  Definition prepare_overlay (fs : folders) (overlay : str) : res (folders * option location * option location) :=
    if str_eqb overlay [] then Ok (fs, None, None)
    else if str_eqb overlay $":temp:" then Ok (fset fs temporary KDir, Some temporary, Some temporary)
    else let p := realpath overlay in
         match fget fs p with
         | Some _ => Ok (fs, Some p, None)
         | None => bind (mkdirs fs [] p) (fun fs' => Ok (fs', Some p, None))
         end.

  (** The log file, FuseMount.py 208-213 *)
  Definition prepare_log (fs : folders) (log : str) : res folders :=
    if str_eqb log [] then Ok fs
    else let p := realpath log in bind (mkdirs fs [] (removelast p)) (fun fs' => make_file fs' p).

  (** The last part of the constructor, FuseMount.py 247-292: compose, check the overlay, create the mount point. *)
  Definition finish (fs : folders) (q : request) (point : location) (overlay : option location) (sources : list (str * opened)) : res (root * folders * bool) :=
    match compose (q_side_by_side q) sources with
    | Err e => Err e
    | Ok r =>
        match (match overlay with None => Ok tt | Some p => open_overlay fs r p end) with
        | Err e => Err e
        | Ok _ =>
            match fget fs point with
            | Some _ => Ok (r, fs, false)
            | None => match make_folder fs point with Err e => Err e | Ok fs' => Ok (r, fs', true) end
            end
        end
    end.

  (** FuseMount.__init__, 115-292: the result, the folders afterwards and what _close has to undo.
      The overlay folder is appended to the paths, 176. *)
  Definition init (fs : folders) (q : request) : res root * (folders * held) :=
    let point := realpath (q_point q) in
    let nothing := mkHeld None None in
    match fget fs point with
    | Some KFile => (Err ValueError, (fs, nothing))
    | _ =>
        let paths := filter (kept fs) (q_inputs q) in
        match q_inputs q, paths with
        | _ :: _, [] => (Err ValueError, (fs, nothing))
        | _, _ =>
            match prepare_overlay fs (q_overlay q) with
            | Err e => (Err e, (fs, nothing))
            | Ok (fs1, overlay, temp) =>
                let paths1 := paths ++ match overlay with Some p => [written p] | None => [] end in
                match open_all fs1 point false paths1 with
                | Err e => (Err e, (fs1, mkHeld temp None))
                | Ok l =>
                    match prepare_log fs1 (q_log q) with
                    | Err e => (Err e, (fs1, mkHeld temp None))
                    | Ok fs2 =>
                        match finish fs2 q point overlay (with_control_layer (q_control q) l) with
                        | Err e => (Err e, (fs2, mkHeld temp None))
                        | Ok (r, fs3, made) => (Ok r, (fs3, mkHeld temp (if made then Some point else None)))
                        end
                    end
                end
            end
        end
    end.

  (** FuseMount._close, 307-317 and 383-392: the temporary folder is removed with everything in it, a created mount point if it is empty. *)
  Definition close (fs : folders) (h : held) : folders :=
    let fs1 := match h_temporary h with None => fs | Some t => filter (fun e => negb (loc_prefix t (fst e))) fs end in
    match h_created h with
    | None => fs1
    | Some p => if occupied fs1 p then fs1 else fdel fs1 p
    end.
End Mounts.
Arguments opened : clear implicits.
Arguments root : clear implicits.
Arguments root_lookup {U}.

(** ** Calls that are kept out of the control folder *)

(** check_ignored_prefixes, WriteOverlay.py 24-47, with the prefixes of the constructor, 80-84. *)
Definition ignored_prefix (prefix : str) : str := Path_Model.posix_normpath (slash :: strip slash prefix) ++ $"/".
Definition forbidden (prefixes : list str) (path : str) : bool :=
  existsb (fun prefix => starts_with (ignored_prefix prefix) path) prefixes.

(** The path each call checks, its first argument; rename is the only call that is not decorated (WriteOverlay.py 294-474).  Writing goes
    through a handle here, see Overlay_Model.v. *)
Definition checked_path {A} (o : @op A) : option location :=
  match o with
  | OpCreate p _ | OpMkdir p _ | OpMknod p | OpSymlink p _ | OpLink p _ | OpUnlink p | OpRmdir p
  | OpTruncate p _ | OpOpenWrite p | OpAttributes p _ => Some p
  | OpRename _ _ | OpWrite _ _ _ => None
  end.

Section Guard.
  Context {A : Type}.
  Variable zero : A.
  Variable lower : location -> option (@lnode A).
  Variable lower_names : location -> list str.
  Variable attributes : @ostate A -> location -> Z * Z * Z * Z.
  Variable prefixes : list str.

  (** The wrapper of check_ignored_prefixes, WriteOverlay.py 27-43 *)
  Definition guarded (st : @ostate A) (o : @op A) : res unit * @ostate A :=
    match checked_path o with
    | Some p => if forbidden prefixes (written p) then (Err FileNotFound, st) else step zero lower lower_names attributes st o
    | None => step zero lower lower_names attributes st o
    end.

  Definition run_guarded (st : @ostate A) (h : list (@op A)) : @ostate A := fold_left (fun s o => snd (guarded s o)) h st.
End Guard.

(** self._controlLayerPrefix, FuseMount.py 136 *)
Definition control_prefix : str := $"/.ratarmount-control/".
