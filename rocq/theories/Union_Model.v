(** Model of core/ratarmountcore/mountsource/compositing/union.py. *)
From Coq Require Import Ascii String.
From Verif Require Import PyBase PyDict PyStr FileInfo.
Local Open Scope Z_scope.

(** The result of MountSource.list: nothing, names, or names with metadata (MountSource.py:46-48). *)
Inductive listing (V : Type) := LNone | LNames (names : list str) | LDict (d : list (str * V)).
Arguments LNone {V}. Arguments LNames {V}. Arguments LDict {V}.

(** Iterating over a listing yields its names. *)
Definition names_of {V} (l : listing V) : list str :=
  match l with LNone => [] | LNames ns => ns | LDict d => dkeys d end.

(** A mount source, seen through the part of its interface that the union uses (MountSource.py:38-107).  All functions
    are pure: the source does not change between two calls. *)
Record source (U : Type) := mkSource {
  s_lookup : str -> Z -> option (finfo U);
  s_versions : str -> nat;
  s_list : str -> listing (finfo U);
  s_list_mode : str -> listing Z;
  s_immutable : bool }.
Arguments mkSource {U}. Arguments s_lookup {U}. Arguments s_versions {U}. Arguments s_list {U}.
Arguments s_list_mode {U}. Arguments s_immutable {U}.

(** [os.path.join(folder, file)] (Lib/posixpath.py) *)
Definition path_join (a b : str) : str :=
  if starts_with $"/" b then b
  else if (match a with [] => true | _ => ends_with $"/" a end) then a ++ b else a ++ slash :: b.

(** [s.split(c, n)[:-1]]: the first parts, without the rest after the [n]-th separator. *)
Definition split_n_init (c : ascii) (s : str) (n : nat) : list str := firstn n (removelast (split c s)).

Section Union.
  Context {U : Type}.
  (** Sources are referred to by their position: [m in cachedMountSources] compares identities. *)
  Variable sources : list (source U).

  Definition dirs_of (i : nat) (m : source U) (folder : str) : list (str * nat) :=
    flat_map (fun file =>
      let fullPath := path_join folder file in
      match s_lookup m fullPath 0 with
      | Some info => if is_dir_mode (fi_mode info) then [(fullPath, i)] else []
      | None => []
      end) (names_of (s_list m folder)).

  (** [newFolderCache[fullPath].append(mountSource)] or [= [mountSource]], union.py:75-78 *)
  Definition cache_add (c : list (str * list nat)) (e : str * nat) : list (str * list nat) :=
    let '(p, i) := e in
    match dget str_eqb c p with
    | Some l => dset str_eqb c p (l ++ [i])
    | None => dset str_eqb c p [i]
    end.

  (** One round of the loop in _build_folder_cache, union.py:56-78. *)
  Definition cache_round (last : list (str * list nat)) : list (str * list nat) :=
    fold_left cache_add
      (flat_map (fun '(folder, idx) =>
         flat_map (fun i => match nth_error sources i with Some m => dirs_of i m folder | None => [] end) idx) last) [].

  (** _build_folder_cache, union.py:46-98.  [stop depth] says whether the time or entry limit strikes in the round of that
      depth (union.py:66-67: it returns before the results of the round are merged); [rounds] is maxCacheDepth - 1.
      The result is the pair of self.folderCache and self.folderCacheDepth. *)
  Fixpoint cache_rounds (rounds : nat) (stop : nat -> bool) (depth : nat)
                        (cache last : list (str * list nat)) : list (str * list nat) * nat :=
    match rounds with
    | O => (cache, depth)
    | S n =>
      if stop (S depth) then (cache, depth)
      else match cache_round last with
           | [] => (cache, depth)
           | new => cache_rounds n stop (S depth) (dupdate str_eqb cache new) new
           end
    end.

  Definition immutable_idx : list nat :=
    filter (fun i => match nth_error sources i with Some m => s_immutable m | None => false end) (seq 0 (length sources)).

  (** UnionMountSource.__init__, union.py:16-44 *)
  Definition build_cache (rounds : nat) (stop : nat -> bool) : list (str * list nat) * nat :=
    if Nat.ltb 1 (length sources) then
      cache_rounds rounds stop 0 [($"/", immutable_idx)] [($"/", immutable_idx)]
    else ([($"/", seq 0 (length sources))], O).

  (** The choice of the sources to ask, UnionMountSource.lookup, union.py:108-120. *)
  Definition chosen (cache : list (str * list nat)) (depth : nat) (path : str) : list (nat * source U) :=
    let cached :=
      match dget str_eqb cache path with
      | Some l => l
      | None =>
        if Nat.ltb 0 depth && starts_with $"/" path then
          let parentFolder := join $"/" (split_n_init slash path (S depth)) in
          let parentFolder := match parentFolder with [] => $"/" | _ => parentFolder end in
          match dget str_eqb cache parentFolder with Some l => l | None => [] end
        else seq 0 (length sources)
      end in
    filter (fun '(i, m) => negb (s_immutable m) || existsb (Nat.eqb i) cached) (combine (seq 0 (length sources)) sources).

  (** The loop for fileVersion <= 0, union.py:125-133; [ms] are the reversed sources. *)
  Fixpoint look_back (ms : list (nat * source U)) (path : str) (v : Z) : option (nat * finfo U) :=
    match ms with
    | [] => None
    | (i, m) :: rest =>
      match s_lookup m path v with
      | Some info => Some (i, info)
      | None =>
        let v' := v + Z.of_nat (s_versions m path) in
        if 0 <? v' then None else look_back rest path v'
      end
    end.

  (** The loop for fileVersion >= 1, union.py:135-143. *)
  Fixpoint look_forward (ms : list (nat * source U)) (path : str) (v : Z) : option (nat * finfo U) :=
    match ms with
    | [] => None
    | (i, m) :: rest =>
      match s_lookup m path v with
      | Some info => Some (i, info)
      | None =>
        let v' := v - Z.of_nat (s_versions m path) in
        if v' <? 1 then None else look_forward rest path v'
      end
    end.

  Inductive found := FoundRoot | Found (i : nat) (info : finfo U).

  (** UnionMountSource.lookup, union.py:105-146.  The mount source appended to the userdata is the index [i]. *)
  Definition union_lookup (cache : list (str * list nat)) (depth : nat) (path : str) (v : Z) : option found :=
    match strip slash path with
    | [] => Some FoundRoot
    | _ =>
      let ms := chosen cache depth path in
      option_map (fun '(i, info) => Found i info) (if v <=? 0 then look_back (rev ms) path v else look_forward ms path v)
    end.

  (** UnionMountSource.versions, union.py:149-150 *)
  Definition union_versions (path : str) : nat := list_sum (map (fun m => s_versions m path) sources).

  (** UnionMountSource._list, union.py:152-177.  Sets are lists here; their order and duplicates carry no meaning. *)
  Definition list_step {V} (files result : listing V) : listing V :=
    match files with
    | LNone => match result with LNames ns => LNames ns | other => other end
    | LDict d =>
      match result with
      | LDict r => LDict (dupdate str_eqb d r)
      | LNames ns => LNames (dkeys d ++ ns)
      | LNone => files
      end
    | LNames fs =>
      match result with
      | LDict r => LNames (fs ++ dkeys r)
      | LNames ns => LNames (fs ++ ns)
      | LNone => files
      end
    end.
  Definition union_list (path : str) : listing (finfo U) :=
    fold_left (fun files m => list_step files (s_list m path)) (rev sources) LNone.
  Definition union_list_mode (path : str) : listing Z :=
    fold_left (fun files m => list_step files (s_list_mode m path)) (rev sources) LNone.
End Union.
