(** Specification for C90 and C91: a remote tree of files and a file system of fsspec that serves it. *)
From Coq Require Import Ascii String.
From Verif Require Import PyBase PyDict PyStr FileInfo Path_Model Path_Spec Fsspec_Model.
Local Open Scope Z_scope.

Section Spec.
  Context {A : Type}.

  (** The remote files. *)
  Inductive robj := RDir (entries : list (str * robj)) | RFile (data : list A).

  Fixpoint remote_at (o : robj) (loc : list str) : option robj :=
    match loc with
    | [] => Some o
    | name :: r =>
        match o with
        | RDir es => match find (fun e => str_eqb (fst e) name) es with Some (_, o') => remote_at o' r | None => None end
        | RFile _ => None
        end
    end.

  Inductive proper_remote : robj -> Prop :=
  | proper_file d : proper_remote (RFile d)
  | proper_dir es : NoDup (map fst es) -> (forall n o, In (n, o) es -> proper_name n /\ proper_remote o) -> proper_remote (RDir es).

  (** Some file systems use absolute paths, others paths without a leading slash. *)
  Definition render (abs : bool) (loc : list str) : str := if abs then written loc else join $"/" loc.

  (** An entry describes an object: folders may be written with slashes at either end. *)
  Definition describes (abs : bool) (e : entry) (loc : list str) (o : robj) : Prop :=
    match o with
    | RDir _ => strip slash (e_name e) = join $"/" loc /\ e_dir e = true
    | RFile d => e_name e = render abs loc /\ e_dir e = false /\ e_size e = Some (len d)
    end.

  (** The file system serves the tree.  A listing may contain the folder itself, as fsspec's TAR file system does. *)
  Record serves (fs : remote A) (abs : bool) (tree : robj) : Prop := {
    sv_exists : forall loc, Forall proper_name loc -> r_lexists fs (render abs loc) = true <-> remote_at tree loc <> None;
    sv_isdir : forall loc es, Forall proper_name loc -> remote_at tree loc = Some (RDir es) -> r_isdir fs (render abs loc) = true;
    sv_info : forall loc o, Forall proper_name loc -> loc <> [] -> remote_at tree loc = Some o ->
      exists e, r_info fs (render abs loc) = Ok e /\ describes abs e loc o;
    sv_list : forall loc es, Forall proper_name loc -> remote_at tree loc = Some (RDir es) ->
      exists l, r_listdir fs (render abs loc) = Ok l /\
        Forall2 (fun e no => describes abs e (loc ++ [fst no]) (snd no)) (filter (fun e => negb (str_eqb (strip slash (e_name e)) (join $"/" loc))) l) es;
    sv_open : forall loc d, Forall proper_name loc -> remote_at tree loc = Some (RFile d) -> r_open fs (render abs loc) = Ok d;
    sv_other : forall loc, Forall proper_name loc ->
      (abs = false -> r_lexists fs (written loc) = false) /\
      (abs = true -> remote_at tree loc = None -> r_lexists fs (join $"/" loc) = false) }.

  (** What is shown. *)
  Definition remote_mode (o : robj) : Z := match o with RDir _ => 16384 + 365 | RFile _ => 32768 + 365 end.

  (** How a folder of the file system is given as a prefix: not at all for the root, or as the file system writes it, with any
      number of slashes after it. *)
  Definition names_prefix (fs : remote A) (abs : bool) (tree : robj) (prefix : option str) (pre : list str) : Prop :=
    (pre = [] /\ (prefix = None \/ exists n, prefix = Some (repeat slash n))) \/
    (pre <> [] /\ exists n es, remote_at tree pre = Some (RDir es) /\ prefix = Some (render abs pre ++ repeat slash n) /\
       r_isdir fs (render abs pre ++ repeat slash n) = true).
End Spec.
Arguments robj : clear implicits.

(** * Web servers *)
Section Http.
  Variable quote : str -> str.

  (** The URL of a folder or file below the mounted URL. *)
  Definition url_of (base : str) (loc : list str) : str := base ++ concat (map (fun n => slash :: quote n) loc).

  (** The links on the page of a folder: its files and folders, and links for sorting and within the page. *)
  Inductive page_link (url : str) (names : list str) (e : entry) : Prop :=
  | link_child n k : In n names -> e_name e = url ++ slash :: quote n ++ repeat slash k -> page_link url names e
  | link_sort t : e_name e = url ++ slash :: "?"%char :: t -> page_link url names e
  | link_anchor t : e_name e = url ++ slash :: "#"%char :: t -> page_link url names e.

  (** Quoting keeps slashes, can be undone, and quoted names have no special characters. *)
  Record proper_quoting (unquote : str -> str) : Prop := {
    pq_path : forall loc, quote (written loc) = written (map quote loc);
    pq_inverse : forall n, unquote (quote n) = n;
    pq_name : forall n, proper_name n -> proper_name (quote n) /\ ~ In "?"%char (quote n) /\ ~ In "#"%char (quote n) }.
End Http.
