(** Model of how a running mount handles paths of its own mount point: /repo/ratarmount/FuseMount.py 417-459 and 478-647.

    [os.path.realpath], the lookup of a path in the mount, and whether the dynamic subvolumes accept a mount point are
    parameters.  Not modelled: passwords, the options handed to the new mount source, and the layers put around it. *)
From Coq Require Import Ascii String.
From Verif Require Import PyBase PyStr Path_Model.

(** Python's [str.removeprefix]: [None] if the prefix is not there. *)
Fixpoint drop_prefix (p s : str) : option str :=
  match p, s with
  | [], _ => Some s
  | _, [] => None
  | a :: p', b :: s' => if char_eqb a b then drop_prefix p' s' else None
  end.
Definition removeprefix (s p : str) : str := match drop_prefix p s with Some r => r | None => s end.

(** [needle in s] and [s.count(needle)] for a needle that cannot overlap itself. *)
Fixpoint count_sub (needle s : str) : nat :=
  match s with
  | [] => 0
  | _ :: r => (if starts_with needle s then 1 else 0) + count_sub needle r
  end.
Definition contains (needle s : str) : bool := negb (Nat.eqb (count_sub needle s) 0).

Section Own.
  (** [self.mountPoint], the real path of the mount point. *)
  Variable mount_point : str.

  (** [_path_provided_by_us], FuseMount.py 417-425; both separators are "/" on POSIX systems. *)
  Definition path_provided_by_us (path : str) : option str :=
    let n := posix_normpath path in
    if str_eqb n mount_point then Some []
    else let sub := removeprefix n (mount_point ++ $"/") in
         if str_eqb sub n then None else Some sub.

  Definition ours (path : str) : bool := match path_provided_by_us path with Some _ => true | None => false end.

  Section Filter.
    (** [os.path.realpath] *)
    Variable realpath : str -> str.

    (** The two options; [None] when absent or not of the expected type, in which case they are left alone. *)
    Record index_options := mkIO { io_file : option str; io_folders : option (list str) }.

    (** [_filter_index_locations_in_fuse_mount], FuseMount.py 427-459 *)
    Definition filter_index_locations (o : index_options) : index_options :=
      let '(file, hasPath) :=
        match io_file o with
        | None => (None, false)
        | Some given =>
            let f := if Nat.eqb (count_sub $"://" given) 1 then removeprefix given $"file://" else given in
            let f := if contains $"://" f then f else realpath given in
            if ours f then (None, false) else (Some f, true)
        end in
      let folders := option_map (fun l => map realpath (filter (fun d => negb (ours d)) l)) (io_folders o) in
      let hasPath := hasPath || match folders with Some (_ :: _) => true | _ => false end in
      mkIO (if hasPath then file else Some $":memory:") folders.
  End Filter.

  Section Command.
    (** [self._lookup(path)] finds something. *)
    Variable shown : str -> bool.
    (** [self._subvolumes], whether dynamic mounts are possible, and its [is_mountable]. *)
    Variable has_subvolumes : bool.
    Variable mountable : str -> bool.

    (** The parsed arguments, as far as they are inspected. *)
    Record parsed := mkP { p_unmount : bool; p_commit : bool; p_sources : list str }.

    (** What a command makes the mount do. *)
    Inductive action := UnmountSub (path : str) | MountSub (sources : list str) (mount_point : str) | Spawn.

    (** How [_process_parsed_arguments] ends: [sys.exit(0)], a list of arguments, or None. *)
    Inductive verdict := Exits | NewArguments (args : list str) | Unprocessed.

    Definition isabs (p : str) : bool := starts_with $"/" p.

    (** The loop over the paths to unmount, FuseMount.py 556-573: what is unmounted, and the arguments collected. *)
    Fixpoint unmount_loop (paths : list str) : list action * list str :=
      match paths with
      | [] => ([], [])
      | p :: r =>
          let '(acts, args) := unmount_loop r in
          if negb (isabs p) then (UnmountSub p :: acts, args)
          else match path_provided_by_us p with
               | Some sub => match strip slash sub with
                             | [] => (acts, p :: args)
                             | _ => (UnmountSub sub :: acts, args)
                             end
               | None => (acts, p :: args)
               end
      end.

    (** [mount], FuseMount.py 478-528, the checks. *)
    Definition mount_action (sources : list str) (target : str) : res (list action) :=
      if negb has_subvolumes then Err RuntimeError
      else match target with
           | [] => Err ValueError
           | _ => match sources with
                  | [] => Err ValueError
                  | _ => if negb (mountable target) then Err ValueError
                         else if existsb ours sources then Err ValueError
                         else Ok [MountSub sources target]
                  end
           end.

    (** [_process_parsed_arguments], FuseMount.py 535-612 *)
    Definition process_parsed (a : parsed) : res (list action * verdict) :=
      if p_unmount a then
        match filter (fun p => match p with [] => false | _ => true end) (p_sources a) with
        | [] => Err ValueError
        | points => let '(acts, args) := unmount_loop points in
                    Ok (acts, match args with [] => Exits | _ => NewArguments ($"--unmount" :: args) end)
        end
      else if existsb (fun p => negb (isabs p) && negb (contains $"://" p)) (removelast (p_sources a)) then Err ValueError
      else if p_commit a then Ok ([], Unprocessed)
      else match rev (p_sources a) with
           | [] => Err IndexError
           | lst :: _ =>
               let sources := removelast (p_sources a) in
               if contains $"://" lst then Ok ([], Unprocessed)
               else if isabs lst then
                 match path_provided_by_us lst with
                 | None => Ok ([], Unprocessed)
                 | Some sub => match strip slash sub with
                               | [] => Ok ([], Unprocessed)
                               | _ => match mount_action sources lst with Ok acts => Ok (acts, Exits) | Err e => Err e end
                               end
                 end
               else if shown lst then Err ValueError
               else match mount_action sources lst with Ok acts => Ok (acts, Exits) | Err e => Err e end
           end.

    (** [_parse_command], FuseMount.py 619-647, after the argument parser.  Errors are logged, nothing is done then. *)
    Definition parse_command (a : parsed) : list action :=
      match process_parsed a with
      | Err _ => []
      | Ok (acts, Exits) => acts
      | Ok (acts, NewArguments _) => acts
      | Ok (acts, Unprocessed) => acts ++ [Spawn]
      end.
  End Command.
End Own.
