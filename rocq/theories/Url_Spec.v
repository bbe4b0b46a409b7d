(** What the documentation says about URLs of other machines. *)
From Coq Require Import Ascii String.
From Verif Require Import PyBase PyStr Url_Model.
Local Open Scope Z_scope.

(** webdav://[user:password@]host[:port][/path] *)
Definition webdav_text (credentials : option (str * str)) (host path : str) : str :=
  (match credentials with Some (u, p) => u ++ $":" ++ p ++ $"@" | None => [] end) ++ host ++ path.
Definition lacks (l : list ascii) (s : str) : Prop := Forall (fun c => ~ In c l) s.
Definition good_user (u : str) : Prop := lacks [":"%char; "/"%char] u.
Definition good_password (p : str) : Prop := lacks ["@"%char; "/"%char] p.
(** No slash; with nothing before it, also not something that looks like credentials. *)
Definition good_host (credentials : option (str * str)) (h : str) : Prop :=
  lacks ["/"%char] h /\ (credentials = None -> lacks ["@"%char] h).
Definition good_path (p : str) : Prop := (p = [] \/ exists r, p = "/"%char :: r) /\ lacks ["010"%char] p.

(** Credentials of the URL come first, then those of the environment. *)
Definition both {A} (a b : option A) : option (A * A) := match a, b with Some a, Some b => Some (a, b) | _, _ => None end.

(** The names in a path, however many slashes are around them. *)
Definition names (path : str) : list str := filter (fun n => match n with [] => false | _ => true end) (split "/"%char path).

(** What there is on the other machine. *)
Inductive there := Nothing | AFolder | AFile (seeks : bool).
Definition honest (r : remote) (t : str -> there) : Prop :=
  forall p, fs_isdir r p = (match t p with AFolder => true | _ => false end) /\
            fs_isfile r p = (match t p with AFile _ => true | _ => false end) /\
            fs_exists r p = (match t p with Nothing => false | _ => true end) /\
            fs_seeks r p = (match t p with AFile b => b | _ => false end).
(** What a user gets for something on the other machine. *)
Definition shown (s : server) (path : str) (t : there) (r : res opened_url) : Prop :=
  match t with
  | Nothing => exists e, r = Err e
  | AFolder => r = Ok (Folder s path)
  | AFile true => r = Ok (File s path 0)
  | AFile false => exists e, r = Err e
  end.
