(** The tree of a FAT volume. *)
From Verif Require Import PyBase Fat_Model Fat_Spec FatDir_Spec.
Local Open Scope Z_scope.

Section Tree.
  Variable oem : Z -> Z.
  Variable is_space : Z -> bool.
  Variable image : list Z.
  Variable b : boot.

  (** Attributes: 8 is a volume label, 16 a directory. *)
  Definition has_bit (bit attr : Z) : Prop := attr / bit mod 2 = 1.
  Definition is_folder (e : entry) : Prop := has_bit 16 (e_attr e).
  (** Labels and the entries "." and ".." are not shown. *)
  Definition visible (e : entry) : Prop := ~ has_bit 8 (e_attr e) /\ seen_short oem e <> [46] /\ seen_short oem e <> [46; 46].
  (** An entry answers to its long and its short name. *)
  Definition called (e : entry) (name : list Z) : Prop := in_parts name (e_parts e) \/ name = seen_short oem e.
  (** It is shown by its long name if it has one. *)
  Definition shown_as (e : entry) (name : list Z) : Prop := in_parts name (e_parts e) \/ e_parts e = [] /\ name = seen_short oem e.
  (** What a directory has to be: its entries are valid, and no name stands for two of those that are visible. *)
  Definition good_items (items : list item) : Prop :=
    Forall valid_item items /\ Forall (no_blank_end oem is_space) (present items) /\
    (forall before e between e' after name, present items = before ++ e :: between ++ e' :: after -> visible e -> visible e' -> called e name -> ~ called e' name).

  (** The directories by their paths. *)
  Inductive folder_at : list (list Z) -> list item -> Prop :=
  | folder_root items : holds_root image b items -> good_items items -> folder_at [] items
  | folder_below names items e name items' : folder_at names items -> In e (present items) -> visible e -> is_folder e -> called e name ->
      holds_dir image b (e_cluster e) items' -> good_items items' -> folder_at (names ++ [name]) items'.
  Definition entry_at (names : list (list Z)) (e : entry) : Prop :=
    exists parents name items, names = parents ++ [name] /\ folder_at parents items /\ In e (present items) /\ visible e /\ called e name.
  (** All directories can be read. *)
  Definition sound_tree : Prop :=
    (exists items, folder_at [] items) /\
    (forall names items e, folder_at names items -> In e (present items) -> visible e -> is_folder e -> exists items', holds_dir image b (e_cluster e) items' /\ good_items items').
End Tree.

(** The names on a path: what is between slashes. *)
Inductive path_names : list Z -> list (list Z) -> Prop :=
| pn_end : path_names [] []
| pn_slash p l : path_names p l -> path_names (47 :: p) l
| pn_name name p l : name <> [] -> ~ In 47 name -> path_names (47 :: p) l -> path_names (name ++ 47 :: p) (name :: l)
| pn_last name : name <> [] -> ~ In 47 name -> path_names name [name].
