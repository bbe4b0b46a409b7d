(** Specification for committing: what an archive shows when mounted. *)
From Coq Require Import Ascii String.
From Verif Require Import PyBase PyStr Path_Spec Overlay_Model Overlay_Spec.

Section Spec.
  Context {A : Type}.

  (** The members of the list which are about a location. *)
  Definition members_at (M : list (str * @lnode A)) (q : location) : list (str * @lnode A) :=
    filter (fun m => loc_eqb (denotes (fst m)) q) M.

  (** An archive shows, for each location, the last member with a name for it; folders which only appear as part of longer
      names exist as well. *)
  Definition archive_shows (M : list (str * @lnode A)) (q : location) : option (@lnode A) :=
    match rev (members_at M q) with
    | m :: _ => Some (snd m)
    | [] => if existsb (fun m => loc_prefix q (denotes (fst m))) M then Some LDir else None
    end.

  (** The names listed in a folder. *)
  Definition archive_names (M : list (str * @lnode A)) (q : location) : list str :=
    flat_map (fun m => if loc_prefix q (denotes (fst m)) then firstn 1 (skipn (length q) (denotes (fst m))) else []) M.

  (** Whatever has something below it is a folder. *)
  Definition consistent (M : list (str * @lnode A)) : Prop :=
    forall m q r, In m M -> denotes (fst m) = q ++ r -> q <> [] -> r <> [] -> archive_shows M q = Some LDir.

  (** The usual spellings of names in archives: a/b, /a/b, ./a/b, each possibly with a trailing slash, and "./". *)
  Definition well_spelled (name : str) : Prop :=
    (exists q, q <> [] /\ Forall proper_name q /\
       exists pre post, In pre [[]; $"/"; $"./"] /\ In post [[]; $"/"] /\ name = pre ++ join $"/" q ++ post) \/
    name = $"." \/ name = $"./".

  (** The same thing, seen in a mount and stored in an archive. *)
  Definition same_entry (e : option (@entry A)) (n : option (@lnode A)) : Prop := e = option_map entry_of_lower n.
End Spec.

Section Clean.
  Context {A : Type}.
  Variable lower : location -> option (@lnode A).

  (** A state of the overlay as calls the kernel passes on leave it, see [Commit_Steps]: nothing in the overlay folder is
      marked as deleted, whatever is shown lies in folders that are shown, no folder of the overlay folder is in the place
      of a file of the archive, and all names are proper. *)
  Record clean (st : @ostate A) : Prop := {
    clean_fs : NoDup (map fst (o_fs st));
    clean_names : forall p, oget (o_fs st) p <> None -> p <> [] /\ Forall proper_name p;
    clean_deleted_names : forall p, is_deleted st p = true -> p <> [] /\ Forall proper_name p;
    clean_deleted : forall p, is_deleted st p = true -> oget (o_fs st) p = None;
    clean_tree : forall p n, visible lower st (p ++ [n]) <> None -> p = [] \/ visible lower st p = Some EDir;
    clean_folders : forall p, oget (o_fs st) p = Some ODir -> lower p = None \/ lower p = Some LDir
  }.
End Clean.

Section PassedOn.
  Context {A : Type}.
  Variable lower : location -> option (@lnode A).

  Definition name_ok (p : location) : Prop := p <> [] /\ Forall proper_name p.

  (** The folder a path lies in is shown. *)
  Definition in_folder (st : @ostate A) (p : location) : Prop :=
    removelast p = [] \/ visible lower st (removelast p) = Some EDir.

  (** The calls the kernel passes on to a file system: it looks paths up first, so things are only created in
      folders and under free names, and only what is there is removed, renamed, opened or changed. *)
  Definition passed_on (st : @ostate A) (o : @op A) : Prop :=
    match o with
    | OpCreate p _ | OpMkdir p _ | OpMknod p | OpSymlink p _ | OpLink p _ =>
        name_ok p /\ in_folder st p /\ visible lower st p = None
    | OpUnlink p => name_ok p /\ exists e, visible lower st p = Some e /\ e <> EDir
    | OpRmdir p => name_ok p /\ visible lower st p = Some EDir
    | OpRename a b => name_ok a /\ name_ok b /\ a <> b /\ visible lower st a <> None /\
                      in_folder st b
    | OpTruncate p _ | OpOpenWrite p => name_ok p /\ exists c, visible lower st p = Some (EFile c)
    | OpWrite _ _ _ => True
    | OpAttributes p _ => p <> [] -> name_ok p /\ visible lower st p <> None
    end.

  (** Calls for which committing is known to go wrong, see the refuted statements in [Commit_Props]: making a link or node under
      the name of something deleted, making a folder where the archive has a file, renaming folders or onto folders. *)
  Definition committable (st : @ostate A) (o : @op A) : Prop :=
    match o with
    | OpMkdir p _ => lower p = None \/ lower p = Some LDir
    | OpMknod p | OpSymlink p _ | OpLink p _ => is_deleted st p = false
    | OpRename a b => visible lower st a <> Some EDir /\ visible lower st b <> Some EDir
    | _ => True
    end.

  (** A history all of whose calls are of this kind. *)
  Fixpoint fair_history (step : @ostate A -> @op A -> res unit * @ostate A) (st : @ostate A) (h : list op) : Prop :=
    match h with
    | [] => True
    | o :: r => passed_on st o /\ committable st o /\ fair_history step (snd (step st o)) r
    end.
End PassedOn.
