(** Model of stripping archive suffixes from file names: /repo/core/ratarmountcore/compressions.py 181-264, and of the
    inferred mount point: /repo/ratarmount/actions.py 147-171.

    [translate] stands for the parsing of glob patterns in fnmatch.translate; what the translated regular expression matches is
    modelled by [glob_match].  [categories] is EXTENSIONS_BY_CATEGORY. *)
From Coq Require Import Ascii String.
From Verif Require Import PyBase PyStr.

(** Parsed glob patterns: a character, '?', '*', and '[...]' with or without '!'. *)
Inductive gtok := Lit (c : ascii) | AnyChar | Star | OneOf (negated : bool) (cs : list ascii).

(** Lower case of ASCII letters, for re.IGNORECASE.  Other letters are not folded here. *)
Definition lower (c : ascii) : ascii :=
  let n := nat_of_ascii c in if (65 <=? n) && (n <=? 90) then ascii_of_nat (n + 32) else c.
Definition same_letter (a b : ascii) : bool := char_eqb (lower a) (lower b).
Definition char_match (t : gtok) (c : ascii) : bool :=
  match t with
  | Lit x => same_letter x c
  | AnyChar => true
  | Star => true
  | OneOf neg cs => xorb neg (existsb (fun x => same_letter x c) cs)
  end.

(** Does the pattern match the whole string? *)
Fixpoint glob_match (p : list gtok) (s : str) : bool :=
  match p with
  | [] => match s with [] => true | _ => false end
  | Star :: r => (fix star s := glob_match r s || match s with [] => false | _ :: s' => star s' end) s
  | t :: r => match s with [] => false | c :: s' => char_match t c && glob_match r s' end
  end.

(** The regular expressions of rules: alternatives of globs, anchored at the end (compressions.py 191-199), or the one for the
    first part of a split file, "[.]([a]+|[A]+|0*[01])" (compressions.py 187). *)
Inductive regex := Globs (patterns : list (list gtok)) | SplitExt.
Record rule := mkRule { r_include : bool; r_regex : regex }.

(** The leftmost position from which an alternative matches to the end.  All patterns start with a dot, so there is no match of
    the empty string behind it. *)
Fixpoint leftmost (patterns : list (list gtok)) (s : str) (i : nat) : option nat :=
  if existsb (fun p => glob_match p s) patterns then Some i
  else match s with [] => None | _ :: s' => leftmost patterns s' (i + 1) end.

Fixpoint run_of (c : ascii) (s : str) : nat := match s with x :: r => if char_eqb x c then S (run_of c r) else 0 | [] => 0 end.

(** The length of the match at the start of the string, if any: the alternatives in order, repetitions greedy. *)
Definition split_at (s : str) : option nat :=
  match s with
  | c :: r =>
      if char_eqb c dotc
      then if 0 <? run_of "a" r then Some (1 + run_of "a" r)
           else if 0 <? run_of "A" r then Some (1 + run_of "A" r)
           else let z := run_of "0" r in
                match nth_error r z with
                | Some d => if char_eqb d "1" then Some (1 + z + 1) else if 0 <? z then Some (1 + z) else None
                | None => if 0 <? z then Some (1 + z) else None
                end
      else None
  | [] => None
  end.

(** list(regex.finditer(name))[-1] as start and end. *)
Fixpoint finditer (fuel : nat) (s : str) (i : nat) (last : option (nat * nat)) : option (nat * nat) :=
  match fuel with
  | O => last
  | S f => match split_at s with
           | Some n => finditer f (skipn n s) (i + n) (Some (i, i + n))
           | None => match s with [] => last | _ :: r => finditer f r (i + 1) last end
           end
  end.

Definition last_match (r : regex) (name : str) : option (nat * nat) :=
  match r with
  | Globs ps => option_map (fun i => (i, length name)) (leftmost ps name 0)
  | SplitExt => finditer (length name + 1) name 0 None
  end.

(** One round of the loop of strip_suffix, compressions.py 243-262 *)
Definition strip_step (original name : str) (r : rule) : str :=
  match last_match (r_regex r) original with
  | Some (s, e) =>
      if e =? length original
      then if r_include r
           then let new := firstn s original in
                if str_eqb name original || (str_eqb name [] && negb (str_eqb new original))
                   || (negb (str_eqb new []) && (length new <? length name))
                then new else name
           else original
      else name
  | None => name
  end.

(** strip_suffix, compressions.py 237-264 *)
Definition strip_suffix (path : str) (rules : list rule) : str :=
  match rsplit1 slash path with
  | Some (folder, original) => folder ++ [slash] ++ fold_left (strip_step original) rules original
  | None => fold_left (strip_step path) rules path
  end.

Section Compile.
  Variable translate : str -> list gtok.
  Variable categories : str -> option (list str).

  (** compressions.py 196: a dot is put in front unless there is one. *)
  Definition dotted (p : str) : str := if starts_with $"." p then p else $"." ++ p.

  (** The negations at the end, compressions.py 207-212 *)
  Fixpoint negations (fuel : nat) (include : bool) (p : str) : bool * str :=
    match fuel with
    | O => (include, p)
    | S f => if ends_with $"/-" p then negations f (negb include) (firstn (length p - 2) p) else (include, p)
    end.

  Definition flush (rules : list rule) (include : bool) (patterns : list str) : list rule :=
    match patterns with [] => rules | _ => rules ++ [mkRule include (Globs (map (fun p => translate (dotted p)) patterns))] end.

  Definition category_of (p : str) : str := if starts_with $"/" p then strip slash p else [].

  (** The loop of compile_suffix_rules, compressions.py 205-234 *)
  Fixpoint compile_loop (patterns : list str) (rules : list rule) (last_include : bool) (last_patterns : list str) : list rule :=
    match patterns with
    | [] => flush rules last_include last_patterns
    | p :: rest =>
        let '(include, pattern) := negations (length p) true p in
        let category := category_of pattern in
        let is_split := str_eqb category $"split" in
        let '(rules1, include1, patterns1) :=
          if negb (Bool.eqb include last_include) || is_split
          then (flush rules last_include last_patterns, include, [])
          else (rules, last_include, last_patterns) in
        if negb (str_eqb category [])
        then if is_split then compile_loop rest (rules1 ++ [mkRule include SplitExt]) include1 patterns1
             else match categories category with
                  | Some ps => compile_loop rest rules1 include1 (patterns1 ++ ps)
                  | None => compile_loop rest rules1 include1 patterns1
                  end
        else compile_loop rest rules1 include1 (patterns1 ++ [pattern])
    end.
  Definition compile_suffix_rules (patterns : list str) : list rule := compile_loop patterns [] true [].

  (** os.path.splitext(p)[0]: cuts the last dot of the name and what follows, if something other than dots is before it. *)
  Definition splitext0 (p : str) : str :=
    let '(folder, name) := match rsplit1 slash p with Some (f, n) => (f ++ [slash], n) | None => ([], p) end in
    match rsplit1 dotc name with
    | Some (a, _) => if forallb (fun c => char_eqb c dotc) a then p else folder ++ a
    | None => p
    end.

  Definition contains (needle s : str) : bool := existsb (fun i => starts_with needle (skipn i s)) (seq 0 (length s + 1)).

  (** determine_mount_point, actions.py 147-171, without the check that the mount point is not an existing file. *)
  Definition determine_mount_point (source : str) : str :=
    let m1 := strip_suffix source (compile_suffix_rules [$"/all/"]) in
    let m2 := if contains $"://" m1 then match rsplit1 slash m1 with Some (_, n) => n | None => m1 end else m1 in
    let m3 := if str_eqb m2 source then splitext0 m2 else m2 in
    if str_eqb m3 source then m3 ++ $".mounted" else m3.
End Compile.
