(** Model of the command line: /repo/ratarmount/CLIHelpers.py 152-221 (parse_parallelization, process_trivial_parsed_arguments),
    /repo/ratarmount/actions.py 147-232 (process_parsed_arguments) and 277-289 (options for FUSE), and of the choice of decoder and
    number of threads in /repo/core/ratarmountcore/compressions.py 470-620 (use_rapidgzip, open_compressed_file).
    argparse.ArgumentTypeError is written [RatarmountError]; both end the program with the same exit code (cli.py 634-637). *)
From Coq Require Import Ascii String.
From Verif Require Import PyBase PyDict PyStr PyInt Factory_Model Strip_Model.
Local Open Scope Z_scope.

(** int(s) of a string of ASCII digits. *)
Definition int_of_digits (s : str) : Z := fold_left (fun n c => 10 * n + (Z.of_nat (nat_of_ascii c) - 48)) s 0.
(** str.isdigit.  Simplification: ASCII only. *)
Definition isdigit (s : str) : bool := match s with [] => false | _ => forallb is_digit s end.

(** dict(kv.split(':') for kv in parallelization.split(',')), CLIHelpers.py 154: items with other than two parts are a ValueError. *)
Fixpoint pairs_of (items : list str) : res (list (str * str)) :=
  match items with
  | [] => Ok []
  | kv :: rest =>
    match split ":" kv with
    | [k; v] => match pairs_of rest with Ok l => Ok ((k, v) :: l) | Err e => Err e end
    | _ => Err ValueError
    end
  end.

(** The loop at CLIHelpers.py 161-167. *)
Fixpoint counts_of (cores : Z) (items : list (str * str)) (result : list (str * Z)) : res (list (str * Z)) :=
  match items with
  | [] => Ok result
  | (backend, text) :: rest =>
    if isdigit text
    then counts_of cores rest (dset str_eqb result backend (if int_of_digits text =? 0 then cores else int_of_digits text))
    else Err RatarmountError
  end.

(** parse_parallelization, CLIHelpers.py 152-171; [cores] is defaultParallelization. *)
Definition parse_parallelization (cores : Z) (text : str) : res (list (str * Z)) :=
  match (if isdigit text then Ok [([], text)]
         else match pairs_of (split "," text) with Ok l => Ok (dict_of str_eqb l) | Err e => Err e end) with
  | Err e => Err e
  | Ok d =>
    match counts_of cores d [] with
    | Err e => Err e
    | Ok result => Ok (if dmem str_eqb result [] then result else dset str_eqb result [] cores)
    end
  end.

(** parallelizations.get(a, parallelizations.get(b, ... 1)), compressions.py 563-565, 593, 597 and 606. *)
Fixpoint get_first (d : list (str * Z)) (names : list str) : Z :=
  match names with
  | [] => 1
  | name :: rest => match dget str_eqb d name with Some n => n | None => get_first d rest end
  end.

(** args.prioritizedBackends, CLIHelpers.py 217-221; [None]: the option is not given. *)
Definition prioritized_backends (use_backend : option (list str)) : list str :=
  match use_backend with
  | None => []
  | Some texts => rev (flat_map (split ",") texts)
  end.

(** args.index_folders, CLIHelpers.py 205-212; [json] is json.loads.  An empty text stays as it is: no folders. *)
Definition index_folders (json : str -> res (list str)) (text : str) : res (list str) :=
  match text with
  | [] => Ok []
  | c :: _ => if char_eqb c "[" then json text
              else if existsb (char_eqb ",") text then Ok (split "," text) else Ok [text]
  end.

(** utils.py 321-328. *)
Fixpoint remove_duplicates_stable (l seen : list str) : list str :=
  match l with
  | [] => []
  | x :: l => if existsb (str_eqb x) seen then remove_duplicates_stable l seen else x :: remove_duplicates_stable l (x :: seen)
  end.
(** args.passwords: CLIHelpers.py 200-202 and actions.py 227-229. *)
Definition passwords (password : str) (password_file : option str) : list str :=
  remove_duplicates_stable
    ((match password with [] => [] | _ => [password] end) ++
     (match password_file with None => [] | Some bytes => split "010" bytes end)) [].

(** The options for fusepy, actions.py 277-289; [None] is True.  [nonempty]: the mount point is a folder with entries and
    libfuse knows the option. *)
Definition fuse_options (fuse prefix : str) (nonempty : bool) : list (str * option str) :=
  let d := match fuse with
           | [] => []
           | _ => dict_of str_eqb (map (fun option => match split1 "=" option with Some (k, v) => (k, Some v) | None => (option, None) end)
                                       (split "," fuse))
           end in
  let d := match prefix with [] => d | _ => dset str_eqb (dset str_eqb d $"modules" (Some $"subdir")) $"subdir" (Some prefix) end in
  if nonempty then dset str_eqb d $"nonempty" None else d.

Section Paths.
  Variable isdir exists_ : str -> bool.
  (** check_mount_source, actions.py 191-203: the path, its real path, or an error. *)
  Variable check : str -> res str.
  Variable infer : str -> str.  (* determine_mount_point without the last check *)

  (** The last argument as mount point, actions.py 181-187. *)
  Definition separate (args : list str) : list str * option str :=
    match rev args with
    | [] => (args, None)
    | last :: before =>
      if negb (contains $"://" last) && (isdir last || negb (exists_ last)) then (rev before, Some last) else (args, None)
    end.

  (** The loop at actions.py 205-213; [sources] is reversed. *)
  Fixpoint checked (args sources : list str) : res (list str) :=
    match args with
    | [] => Ok (rev sources)
    | path :: rest =>
      match check path with
      | Err e => Err e
      | Ok fixed =>
        match sources with
        | last :: _ => if str_eqb last fixed then checked rest sources else checked rest (fixed :: sources)
        | [] => checked rest (fixed :: sources)
        end
      end
    end.

  (** args.mount_source.count(path) > 1, CLIHelpers.py 181-183 *)
  Definition count (path : str) (l : list str) : nat := length (filter (str_eqb path) l).
  Definition any_twice (l : list str) : bool := existsb (fun path => (1 <? count path l)%nat) l.

  (** process_parsed_arguments with --mount (the default), actions.py 181-235, without --unmount and --commit-overlay: the
      sources and the mount point.  [extra]: a write overlay or the control interface is requested. *)
  Definition mount_arguments (extra : bool) (args : list str) : res (list str * str) :=
    match args with
    | [] => Err IndexError
    | _ =>
      let '(paths, mount_point) := separate args in
      match paths, extra with
      | [], false => Err RatarmountError
      | _, _ =>
        match checked paths [] with
        | Err e => Err e
        | Ok sources =>
          if any_twice sources then Err RatarmountError
          else match mount_point, sources with
               | Some (c :: m), _ => Ok (sources, c :: m)
               | _, first :: _ =>
                 let m := infer first in if exists_ m && negb (isdir m) then Err RatarmountError else Ok (sources, m)
               | _, [] => Ok (sources, $"mounted")
               end
        end
      end
    end.
End Paths.

(** What open_compressed_file asks about a file object: its name if it has one, whether that is an existing file, the size of that
    file, whether its drive is slow, and the length of its attribute block_boundaries (0 without it). *)
Record fileobj := mkFileobj { f_name : option str; f_isfile : bool; f_size : Z; f_slow : bool; f_boundaries : Z }.
Definition real_file (f : fileobj) : bool :=
  match f_name f with Some (_ :: _) => f_isfile f | _ => false end.

(** list.index *)
Fixpoint index_in (x : str) (l : list str) : option nat :=
  match l with [] => None | y :: l => if str_eqb x y then Some O else option_map S (index_in x l) end.

(** use_rapidgzip, compressions.py 470-515 *)
Definition use_rapidgzip (loaded : list str) (spacing : Z) (prioritized : list str) (f : fileobj) : bool :=
  if negb (existsb (str_eqb $"rapidgzip") loaded) then false
  else match index_in $"indexed_gzip" prioritized, index_in $"rapidgzip" prioritized with
       | Some i, Some r => if (i <? r)%nat then false else real_file f && (4 * spacing <=? f_size f)
       | Some _, None => false
       | None, _ => real_file f && (4 * spacing <=? f_size f)
       end.

(** The decoders with their number of threads; [Other] is the open function of a compression backend. *)
Inductive decoder := Rapidgzip (threads : Z) | IndexedGzip | IndexedBzip2 (threads : Z) | ParallelXz (threads : Z) | Other (backend : str).

Section Open.
  Variable GZIP BZIP2 XZ : Z.  (* members of FileFormatID *)
  Variable compressions : list (str * compression_backend).
  Variable loaded : list str.  (* sys.modules *)
  Variable linux : bool.

  (** A function of a module: AttributeError on None if the module could not be imported. *)
  Definition with_module (module : str) (d : decoder) : res decoder :=
    if existsb (str_eqb module) loaded then Ok d else Err AttributeError.

  (** open_compressed_file, compressions.py 518-620, after the detection of the format.  The enabled backends are those delegated to
      'tarfile' (tar.py 627-629); find_available_backend with them is the function on the table restricted to them.
      [None]: the file is used as it is. *)
  Definition enabled : list (str * compression_backend) := filter (fun b => str_eqb (c_delegated (snd b)) $"tarfile") compressions.
  Definition open_compressed_file (spacing : Z) (parallelizations : list (str * Z)) (prioritized : list str) (f : fileobj)
    (compression : option Z) : res (option decoder) :=
    let some r := match r with Ok d => Ok (Some d) | Err e => Err e end in
    match compression with
    | None => Ok None
    | Some id =>
      if negb (existsb (fun b => existsb (Z.eqb id) (c_formats (snd b))) enabled) then Ok None
      else match find_available_backend enabled loaded id prioritized with
      | None => Err (match f_name f with Some _ => RatarmountError (* CompressionError *) | None => AttributeError end)
      | Some (name, _) =>
        if id =? GZIP then
          if use_rapidgzip loaded spacing prioritized f
          then some (with_module $"rapidgzip" (Rapidgzip (if real_file f && f_slow f then 1
                                                          else get_first parallelizations [$"rapidgzip-gzip"; $"rapidgzip"; []])))
          else some (with_module $"indexed_gzip" IndexedGzip)
        else if id =? BZIP2 then some (with_module $"rapidgzip" (IndexedBzip2 (get_first parallelizations [$"rapidgzip-bzip2"; []])))
        else if (id =? XZ) && existsb (str_eqb $"xz") loaded && negb (get_first parallelizations [$"xz"; []] =? 1) &&
                (match f_name f with Some _ => f_isfile f | None => false end) && linux
        then Ok (Some (if 1 <? f_boundaries f then ParallelXz (get_first parallelizations [$"xz"; []]) else Other name))
        else Ok (Some (Other name))
      end
    end.
End Open.
