(** Model of [commit_overlay], /repo/ratarmount/WriteOverlay.py 477-632: what committing a write overlay makes of the TAR.

    A TAR is modelled as its list of members, each a name and what it is.  GNU tar is an external program; the part of its
    documented behaviour the code relies on is modelled here: "--delete" of a name removes the members of that name and those
    below it, "--append" adds members at the end, recursing into folders.  Not modelled: the confirmation prompt, the checks
    that the archive is an uncompressed TAR, hard links as link members (they are files with the same content here), and
    the attributes of members. *)
From Coq Require Import Ascii String.
From Verif Require Import PyBase PyDict PyStr Path_Spec Overlay_Model.

Section Commit.
  Context {A : Type}.

  Notation member := (str * @lnode A)%type.

  (** [add_to_deletion_file], WriteOverlay.py 500-505, for the relative path of a location. *)
  Definition relative (p : location) : str := join $"/" p.
  Definition add_to_deletion_file (p : location) : list str :=
    [relative p; $"/" ++ relative p; $"./" ++ relative p].

  (** The rows with [deleted == 1], WriteOverlay.py 512-514. *)
  Definition deleted_paths (st : @ostate A) : list location :=
    map fst (filter (fun e => r_deleted (snd e)) (o_rows st)).

  Definition is_file (n : onode) : bool := match n with ODir => false | _ => true end.

  (** The files [os.walk] yields, WriteOverlay.py 530-542 (links are among the file names).  The order of [os.walk] is not
      specified and not relied upon: see [commit].  The files of the overlay's database are not part of [o_fs]. *)
  Definition walked_files (st : @ostate A) : list location :=
    map fst (filter (fun e => is_file (snd e)) (o_fs st)).

  (** The deletion list, WriteOverlay.py 507-541 *)
  Definition deletions (st : @ostate A) : list str :=
    flat_map add_to_deletion_file (deleted_paths st ++ walked_files st).

  (** The folders without files directly in them, WriteOverlay.py 544-546 *)
  Definition is_child (d q : location) : bool := loc_eqb (removelast q) d && negb (loc_eqb q []).
  Definition fileless_folders (st : @ostate A) : list location :=
    map fst (filter (fun e => negb (is_file (snd e)) &&
                              negb (existsb (fun f => is_child (fst e) f) (walked_files st))) (o_fs st)).

  (** A member as "tar --append" writes it: folders have a trailing slash. *)
  Definition member_of (st : @ostate A) (e : location * onode) : member :=
    match snd e with
    | ODir => (relative (fst e) ++ $"/", LDir)
    | OFile i => (relative (fst e), LFile (content_of st i))
    | OLink t => (relative (fst e), LLink t)
    end.

  (** The members "tar --append" adds for the append list: the files, and the folders without files together with
      everything below them. *)
  Definition appended (st : @ostate A) : list member :=
    map (member_of st) (filter (fun e => is_file (snd e)) (o_fs st)) ++
    flat_map (fun d => map (member_of st) (filter (fun e => loc_prefix d (fst e)) (o_fs st))) (fileless_folders st).

  (** "tar --delete": does a name from the list select the member?  Trailing slashes of the member do not count. *)
  Definition tar_selects (pattern name : str) : bool :=
    let name := rstrip slash name in
    str_eqb name pattern || starts_with (pattern ++ $"/") name.

  Definition tar_delete (patterns : list str) (M : list member) : list member :=
    filter (fun m => negb (existsb (fun pat => tar_selects pat (fst m)) patterns)) M.

  (** The archive after committing.  [app] are the appended members in the order the file system yields them: any
      permutation of [appended]. *)
  Definition commit (st : @ostate A) (app M : list member) : list member :=
    tar_delete (deletions st) M ++ app.
End Commit.
