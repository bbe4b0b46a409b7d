(** Specification of names in gzip files, RFC 1952 section 2.3 (C103). *)
From Coq Require Import Ascii String.
From Verif Require Import PyBase PyStr.
Local Open Scope Z_scope.

Definition code (c : ascii) : Z := Z.of_N (N_of_ascii c).

(** A gzip file with these flags, these four bytes for the modification time, and [rest] behind the ten bytes of the header. *)
Definition gzip_file (file : str) (flags : Z) (m0 m1 m2 m3 : ascii) (rest : str) : Prop :=
  exists id1 id2 method flag xfl os,
    file = [id1; id2; method; flag; m0; m1; m2; m3; xfl; os] ++ rest /\
    code id1 = 31 /\ code id2 = 139 /\ code method = 8 /\ code flag = flags.

(** FLG.FEXTRA and FLG.FNAME. *)
Definition has_extra (flags : Z) : Prop := Z.testbit flags 2 = true.
Definition has_name (flags : Z) : Prop := Z.testbit flags 3 = true.

(** A name that ends with a zero byte. *)
Definition zero_terminated (rest name : str) : Prop := exists zero after, rest = name ++ zero :: after /\ code zero = 0 /\ Forall (fun c => code c <> 0) name.

(** Compression suffixes. *)
Definition lower_case (s : str) : str :=
  map (fun c => let n := N_of_ascii c in if (N.leb 65 n && N.leb n 90)%bool then ascii_of_N (n + 32) else c) s.
Definition known_suffix (ext : str) : Prop :=
  In (lower_case ext) [$"gz"; $"bz2"; $"bzip2"; $"gzip"; $"xz"; $"zst"; $"zstd"; $"zz"; $"zlib"].

(** The last component of a path. *)
Definition last_name (path name : str) : Prop := ~ In slash name /\ (path = name \/ exists folder, path = folder ++ slash :: name).

(** The name of an archive without its compression suffix, if it has one and more than that. *)
Definition without_suffix (file stem : str) : Prop :=
  (exists ext, known_suffix ext /\ file = stem ++ $"." ++ ext /\ stem <> []) \/
  (stem = file /\ forall stem' ext, known_suffix ext -> file = stem' ++ $"." ++ ext -> stem' = []).

(** The name and the time under which a compressed file should be seen: those stored in it, or else the name of the archive file without its
    compression suffix. *)
Definition archive_name (archive name : str) : Prop := exists file, last_name archive file /\ without_suffix file name.
Definition time_of (m0 m1 m2 m3 : ascii) : Z := code m0 + 256 * code m1 + 65536 * code m2 + 16777216 * code m3.

Inductive seen_as (archive : str) : option str -> str -> Z -> Prop :=
| seen_stored file flags m0 m1 m2 m3 rest name :
    gzip_file file flags m0 m1 m2 m3 rest -> has_name flags -> zero_terminated rest name ->
    seen_as archive (Some file) name (time_of m0 m1 m2 m3)
| seen_unnamed file flags m0 m1 m2 m3 rest name :
    gzip_file file flags m0 m1 m2 m3 rest -> ~ has_name flags -> archive_name archive name -> seen_as archive (Some file) name 0
| seen_other file name :
    (forall flags m0 m1 m2 m3 rest, ~ gzip_file file flags m0 m1 m2 m3 rest) -> archive_name archive name -> seen_as archive (Some file) name 0
| seen_unknown name : archive_name archive name -> seen_as archive None name 0.

(** Stored names that get_gzip_info can read: no extra field before it, and valid UTF-8. *)
Definition readable_name (utf8 : str -> bool) (raw : option str) : Prop :=
  forall file flags m0 m1 m2 m3 rest name, raw = Some file -> gzip_file file flags m0 m1 m2 m3 rest -> has_name flags ->
    zero_terminated rest name -> ~ has_extra flags /\ utf8 name = true.
