(** What is said about the choice of backends, without the code. *)
From Coq Require Import Ascii String.
From Verif Require Import PyBase PyDict PyStr Factory_Model.
Local Open Scope Z_scope.

(** [x] is the first element of [l] with [P]. *)
Definition first_in {T} (P : T -> Prop) (l : list T) (x : T) : Prop :=
  exists before after, l = before ++ x :: after /\ P x /\ Forall (fun y => ~ P y) before.

Section Spec.
Variable Src : Type.
Variable archives : list (str * archive_backend Src).
Variable compressions : list (str * compression_backend).
Variable extensions : Z -> list str.
Variable might_be : Z -> Z -> res bool.

(** The file, looked at from its start, is recognised by the backend (one without formats takes everything). *)
Definition recognised (b : archive_backend Src) : Prop := a_formats _ b = [] \/ exists fid, In fid (a_formats _ b) /\ might_be fid 0 = Ok true.
(** The backend called [name] recognises the file and opens it as [s]. *)
Definition usable (name : str) (s : Src) : Prop :=
  exists b, In (name, b) archives /\ recognised b /\ fst (a_open _ b 0) = Ok (Some s).

(** A name that the user gives stands for an archive backend: itself, or the one that undoes the compression with that name. *)
Definition stands_for (x name : str) : Prop :=
  (exists c, In (x, c) compressions /\ name = c_delegated c) \/ (~ In x (map fst compressions) /\ name = x).

(** The file name ends, in upper or lower case, with a dot and an extension of one of the formats. *)
Definition small_letter (c d : ascii) : Prop :=
  (65 <= nat_of_ascii c <= 90 /\ nat_of_ascii d = nat_of_ascii c + 32)%nat \/ (~ (65 <= nat_of_ascii c <= 90)%nat /\ d = c).
Definition same_letters (a b : str) : Prop := exists l, Forall2 small_letter a l /\ Forall2 small_letter b l.
Definition named_like (fileName : str) (formats : list Z) : Prop :=
  exists fid ext stem tail, In fid formats /\ In ext (extensions fid) /\ fileName = stem ++ tail /\ same_letters tail ("."%char :: ext).

(** The archive backends that the file name suggests: through one of their formats, or through a compression. *)
Definition suggested_archive (fileName name : str) : Prop := exists b, In (name, b) archives /\ named_like fileName (a_formats _ b).
Definition suggested_compression (fileName name : str) : Prop :=
  exists x c, In (x, c) compressions /\ named_like fileName (c_formats c) /\ name = c_delegated c.

(** Decompressors: the module is there and the format is supported. *)
Definition can_undo (loaded : list str) (compression : Z) (b : str * compression_backend) : Prop :=
  In b compressions /\ In compression (c_formats (snd b)) /\ incl (c_modules (snd b)) loaded.
End Spec.

(** The tables: names are unique, compressions are delegated to archive backends, and a name that is in both stands for one backend. *)
Definition proper_tables {Src} (archives : list (str * archive_backend Src)) (compressions : list (str * compression_backend)) : Prop :=
  NoDup (map fst archives) /\ NoDup (map fst compressions) /\
  (forall x c, In (x, c) compressions -> In (c_delegated c) (map fst archives)) /\
  (forall x c, In (x, c) compressions -> In x (map fst archives) -> c_delegated c = x).
(** The format checks do not raise, and backends that give up leave a file object at its start. *)
Definition proper_backends {Src} (archives : list (str * archive_backend Src)) (might_be : Z -> Z -> res bool) : Prop :=
  (forall fid, exists b, might_be fid 0 = Ok b) /\
  (forall name b, In (name, b) archives -> fst (a_open _ b 0) = Ok None -> snd (a_open _ b 0) = 0).
