(** Model of the extended attributes in core/ratarmountcore/SQLiteIndex.py and create-index-tables.sql. *)
From Coq Require Import Ascii String.
From Verif Require Import PyBase PyDict PyStr Path_Model FileInfo Index_Model.
Local Open Scope Z_scope.

Section Xattr.
  Context {V : Type}.

  (** Tables "xattrkeys" (id, name) and "xattrsdata" (offsetheader, keyid, value), create-index-tables.sql:30-44. *)
  Record xattrs := mkX { x_keys : list (Z * str); x_data : list (Z * Z * V) }.
  Definition no_xattrs : xattrs := mkX [] [].

  (** [INSERT OR IGNORE INTO xattrkeys(name)]: the name is unique, a new row gets the largest id plus one. *)
  Definition next_id (keys : list (Z * str)) : Z := 1 + fold_left Z.max (map fst keys) 0.
  Definition intern (keys : list (Z * str)) (name : str) : list (Z * str) :=
    if existsb (fun k => str_eqb (snd k) name) keys then keys else keys ++ [(next_id keys, name)].
  (** [SELECT xattrkeys.id FROM xattrkeys WHERE name = NEW.key] *)
  Definition key_id (keys : list (Z * str)) (name : str) : option Z :=
    option_map fst (find (fun k => str_eqb (snd k) name) keys).
  (** [INSERT OR REPLACE INTO xattrsdata]: primary key (offsetheader, keyid). *)
  Definition put_data (data : list (Z * Z * V)) (oh id : Z) (v : V) : list (Z * Z * V) :=
    filter (fun '(o, i, _) => negb ((o =? oh) && (i =? id))) data ++ [(oh, id, v)].

  (** The trigger "xattrs_insert", create-index-tables.sql:50-58.  The subquery always finds an id (NULL otherwise). *)
  Definition insert_xattr (x : xattrs) (e : Z * str * V) : xattrs :=
    let '(oh, key, v) := e in
    let keys := intern (x_keys x) key in
    match key_id keys key with
    | Some id => mkX keys (put_data (x_data x) oh id v)
    | None => mkX keys (x_data x)
    end.
  (** SQLiteIndex.setxattrs, SQLiteIndex.py:972-974 *)
  Definition setxattrs (x : xattrs) (rows : list (Z * str * V)) : xattrs := fold_left insert_xattr rows x.

  (** The rows of the view "xattrs" are read in any order. *)
  Variable shuffle : list (Z * str * V) -> list (Z * str * V).

  (** The view "xattrs", create-index-tables.sql:46-48: an inner join. *)
  Definition view (x : xattrs) : list (Z * str * V) :=
    flat_map (fun '(oh, id, v) =>
      map (fun k => (oh, snd k, v)) (filter (fun k => fst k =? id) (x_keys x))) (x_data x).

  (** SQLiteIndex.list_xattr, SQLiteIndex.py:976-996 *)
  Definition list_xattr (x : xattrs) (info : finfo tar_data) : list str :=
    match rev (fi_userdata info) with
    | [] => []
    | ud :: _ =>
      if u_isgenerated ud then []
      else map (fun '(_, k, _) => k) (filter (fun '(oh, _, _) => oh =? u_offsetheader ud) (shuffle (view x)))
    end.

  (** SQLiteIndex.get_xattr, SQLiteIndex.py:998-1016 *)
  Definition get_xattr (x : xattrs) (info : finfo tar_data) (key : str) : option V :=
    match rev (fi_userdata info) with
    | [] => None
    | ud :: _ =>
      if u_isgenerated ud then None
      else match filter (fun '(oh, k, _) => (oh =? u_offsetheader ud) && str_eqb k key) (shuffle (view x)) with
           | [] => None
           | (_, _, v) :: _ => Some v
           end
    end.
End Xattr.
Arguments xattrs : clear implicits.
