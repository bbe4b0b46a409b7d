(** Specification of suffix stripping. *)
From Coq Require Import Ascii String.
From Verif Require Import PyBase PyStr Strip_Model.

(** Equal except for upper and lower case (of ASCII letters). *)
Definition same_but_case (a b : ascii) : Prop :=
  a = b \/ exists n, n < 26 /\ (a = ascii_of_nat (65 + n) /\ b = ascii_of_nat (97 + n) \/ b = ascii_of_nat (65 + n) /\ a = ascii_of_nat (97 + n)).

(** What a glob pattern matches. *)
Inductive glob : list gtok -> str -> Prop :=
| glob_nil : glob [] []
| glob_lit x c p s : same_but_case x c -> glob p s -> glob (Lit x :: p) (c :: s)
| glob_any c p s : glob p s -> glob (AnyChar :: p) (c :: s)
| glob_star a p s : glob p s -> glob (Star :: p) (a ++ s)
| glob_one c cs p s : (exists x, In x cs /\ same_but_case x c) -> glob p s -> glob (OneOf false cs :: p) (c :: s)
| glob_none c cs p s : ~ (exists x, In x cs /\ same_but_case x c) -> glob p s -> glob (OneOf true cs :: p) (c :: s).

(** What a rule takes for a suffix: what one of its patterns matches, or the first number of a split file. *)
Definition is_suffix (r : regex) (x : str) : Prop :=
  match r with
  | Globs ps => exists p, In p ps /\ glob p x
  | SplitExt => exists n, x = "."%char :: repeat "a"%char (S n) \/ x = "."%char :: repeat "A"%char (S n) \/
                          x = "."%char :: repeat "0"%char n ++ ["0"%char] \/ x = "."%char :: repeat "0"%char n ++ ["1"%char]
  end.

(** The rule matches the end of the name from position [k] on; from there on first. *)
Definition matches (r : rule) (name : str) (k : nat) : Prop := k <= length name /\ is_suffix (r_regex r) (skipn k name).
Definition first_match (r : rule) (name : str) (k : nat) : Prop := matches r name k /\ forall j, matches r name j -> k <= j.

(** The rules that count for a name: those behind the last exclusion that matches it. *)
Definition active (rules : list rule) (name : str) (act : list rule) : Prop :=
  (rules = act \/ exists before x k, rules = before ++ x :: act /\ r_include x = false /\ matches x name k) /\
  forall x k, In x act -> r_include x = false -> ~ matches x name k.

(** What is left of the name: the rules that count and match give the positions; the smallest one not at the start of the
    name is taken, else the start. *)
Definition left_over (rules : list rule) (name result : str) : Prop :=
  exists act, active rules name act /\
    let at_ k := exists r, In r act /\ r_include r = true /\ first_match r name k in
    (exists k, at_ k /\ 0 < k < length name /\ result = firstn k name /\ forall j, at_ j -> 0 < j -> k <= j) \/
    ((forall k, at_ k -> ~ 0 < k < length name) /\ at_ 0 /\ result = []) \/
    ((forall k, at_ k -> k = length name) /\ result = name).

(** For names that do not start with a dot, and rules whose suffixes do: the longest suffix any rule that counts matches. *)
Definition shortest_left (rules : list rule) (name result : str) : Prop :=
  exists act, active rules name act /\
    ((exists r k, In r act /\ matches r name k /\ result = firstn k name /\ forall r' j, In r' act -> matches r' name j -> k <= j) \/
     ((forall r k, In r act -> ~ matches r name k) /\ result = name)).

(** How a pattern of the user reads: the number of "/-" at its end tells whether it includes or excludes. *)
Definition reads (p : str) (include : bool) (core : str) : Prop :=
  exists n, p = core ++ concat (repeat $"/-" n) /\ include = Nat.even n /\ ~ exists t, core = t ++ $"/-".

(** "/name/" is a category.  Slashes alone are not. *)
Definition is_category (core name : str) : Prop :=
  exists n m, core = repeat "/"%char (S n) ++ name ++ repeat "/"%char m /\ name <> [] /\
              (forall r, name <> "/"%char :: r) /\ (forall r, name <> r ++ ["/"%char]).

(** The rules, one for each suffix, that a pattern stands for.  [translate] parses globs. *)
Inductive entry (translate : str -> list gtok) (categories : str -> option (list str)) : str -> list rule -> Prop :=
| entry_split p include core : reads p include core -> is_category core $"split" ->
    entry translate categories p [mkRule include SplitExt]
| entry_category p include core name suffixes : reads p include core -> is_category core name -> name <> $"split" ->
    categories name = Some suffixes ->
    entry translate categories p
      (map (fun x => mkRule include (Globs [translate (match x with "."%char :: _ => x | _ => "."%char :: x end)])) suffixes)
| entry_unknown p include core name : reads p include core -> is_category core name -> name <> $"split" ->
    categories name = None -> entry translate categories p []
| entry_glob p include core : reads p include core -> (forall name, ~ is_category core name) ->
    entry translate categories p [mkRule include (Globs [translate (match core with "."%char :: _ => core | _ => "."%char :: core end)])].

(** A name in a folder, or without a folder. *)
Definition place (folder : option str) (name : str) : str := match folder with Some f => f ++ "/"%char :: name | None => name end.
