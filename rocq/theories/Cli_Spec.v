(** What is said about the command line, without the code. *)
From Coq Require Import Ascii String.
From Verif Require Import PyBase PyStr Offsets_Spec.
Local Open Scope Z_scope.

(** The texts of -P and what they say: one number, or "<backend>:<number>" items separated by commas. *)
Definition number_text (s : str) (n : Z) : Prop := s <> [] /\ numeral 10 s n.
Definition item_text (p : str) (item : str * Z) : Prop :=
  exists d, number_text d (snd item) /\ p = fst item ++ $":" ++ d /\ ~ In ","%char (fst item) /\ ~ In ":"%char (fst item).
Inductive thread_text : str -> list (str * Z) -> Prop :=
| tt_one s n : number_text s n -> thread_text s [([], n)]
| tt_items parts items : items <> [] -> Forall2 item_text parts items -> thread_text (join $"," parts) items.

(** The texts that are accepted: of several items with the same name only the last one has to hold a number. *)
Definition accepted (text : str) : Prop :=
  (exists n, number_text text n) \/
  exists l : list (str * str), l <> [] /\ text = join $"," (map (fun kv => fst kv ++ $":" ++ snd kv) l) /\
    Forall (fun kv => ~ In ","%char (fst kv) /\ ~ In ","%char (snd kv) /\ ~ In ":"%char (fst kv) /\ ~ In ":"%char (snd kv)) l /\
    forall before after name t, l = before ++ (name, t) :: after -> ~ In name (map fst after) -> exists n, number_text t n.

(** [requested cores items names n]: of the names, the first that is among the items decides, with the last number given for it;
    0 and no item at all mean the number of cores. *)
Definition meant (cores n : Z) : Z := if n =? 0 then cores else n.
Inductive requested (cores : Z) (items : list (str * Z)) : list str -> Z -> Prop :=
| rq_none : requested cores items [] cores
| rq_here name names n before after : items = before ++ (name, n) :: after -> ~ In name (map fst after) ->
    requested cores items (name :: names) (meant cores n)
| rq_next name names n : ~ In name (map fst items) -> requested cores items names n -> requested cores items (name :: names) n.

(** [last_in P l x]: [x] is the last element of [l] with [P]. *)
Definition last_in {T} (P : T -> Prop) (l : list T) (x : T) : Prop :=
  exists before after, l = before ++ x :: after /\ P x /\ Forall (fun y => ~ P y) after.

(** The names in the arguments of --use-backend: comma-separated lists. *)
Definition names_in (texts names : list str) : Prop :=
  exists lists, Forall2 (fun text l => l <> [] /\ Forall (fun name => ~ In ","%char name) l /\ text = join $"," l) texts lists /\
    names = concat lists.

(** Neighbours that are equal are the same source given twice. *)
Inductive squeezed : list str -> list str -> Prop :=
| sq_nil : squeezed [] []
| sq_one x : squeezed [x] [x]
| sq_same x l r : squeezed (x :: l) r -> squeezed (x :: x :: l) r
| sq_other x y l r : x <> y -> squeezed (y :: l) r -> squeezed (x :: y :: l) (x :: r).

(** [order_of l r]: the elements of [l], each once, in the order of their first occurrence. *)
Inductive order_of : list str -> list str -> Prop :=
| oo_nil : order_of [] []
| oo_new l r x : order_of l r -> ~ In x l -> order_of (l ++ [x]) (r ++ [x])
| oo_old l r x : order_of l r -> In x l -> order_of (l ++ [x]) r.

(** FUSE options: "key" or "key=value". *)
Definition option_text (p : str) (o : str * option str) : Prop :=
  ~ In ","%char (fst o) /\ ~ In "="%char (fst o) /\
  match snd o with None => p = fst o | Some v => p = fst o ++ $"=" ++ v /\ ~ In ","%char v end.
