(** What a ZIP archive contains. *)
From Coq Require Import Ascii String.
From Verif Require Import PyBase PyStr Path_Spec Zip_Model.
Local Open Scope Z_scope.

(** No two entries of the directory share a local header. *)
Definition own_headers (infolist : list zinfo) : Prop := NoDup (map z_header infolist).
Definition zip_location (transform : str -> str) (i : zinfo) : location := denotes (transform (z_name i)).
(** The newest entry at a location is the one that lies last in the archive. *)
Definition newest_entry (transform : str -> str) (infolist : list zinfo) (loc : location) (i : zinfo) : Prop :=
  In i infolist /\ zip_location transform i = loc /\ forall j, In j infolist -> zip_location transform j = loc -> z_header j <= z_header i.
Definition nothing_below (transform : str -> str) (infolist : list zinfo) (loc : location) : Prop :=
  forall j rest, In j infolist -> rest <> [] -> zip_location transform j <> loc ++ rest.

(** The UNIX mode an entry was stored with: 0 if the archive was not written on UNIX. *)
Definition unix_mode (i : zinfo) : Z := z_external i / 65536.
Definition is_link (i : zinfo) : Prop := Z.land (unix_mode i) 61440 = 40960.
Definition is_folder (i : zinfo) : Prop := exists p, z_name i = p ++ $"/".
