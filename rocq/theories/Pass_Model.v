(** Model of the search for the password of an encrypted archive: _find_password of
    /repo/core/ratarmountcore/mountsource/formats/zip.py 104-130, py7zr.py 143-169, rar.py 61-88 and sqlar.py 181-184, 223-256.

    The libraries are given by what they answer for the password that is set ([None]: none was set): the list of entries, and what
    happens when an entry is opened and read.  Simplification: opening the archive itself raises nothing for ZIP, RAR and 7z. *)
From Coq Require Import Ascii String.
From Verif Require Import PyBase PyStr.

(** [Refused]: rarfile.PasswordRequired, rarfile.BadRarFile (rar.py 85); [Fails]: any other exception. *)
Inductive outcome := Opened | Refused | Fails (e : exn).

Section Pass.
  Context {entry : Type}.
  Variable infolist : option str -> list entry.
  (** not info.is_dir() and info.file_size > 0; for RAR: info.is_file() *)
  Variable is_file : entry -> bool.
  (** opening the entry and reading from it with the password that is set *)
  Variable opens : option str -> entry -> outcome.

  (** The loops over the passwords when no entries are shown, zip.py 108-113, rar.py 68-73 and py7zr.py 149-154: the password that shows some,
      or the last one that was set. *)
  Fixpoint show_entries (set : option str) (passwords : list str) : option str * bool :=
    match passwords with
    | [] => (set, false)
    | p :: ps => match infolist (Some p) with [] => show_entries (Some p) ps | _ => (Some p, true) end
    end.

  (** "if password_or_none: fileobj.setpassword(password_or_none)", zip.py 121-122: the empty password is not set. *)
  Definition set_zip (set : option str) (p : option str) : option str := match p with Some (_ :: _) => p | _ => set end.
  (** zip.py 120-130; any exception is caught *)
  Fixpoint try_zip (set : option str) (first : entry) (candidates : list (option str)) : res (option str) :=
    match candidates with
    | [] => Err RuntimeError
    | c :: cs => let set := set_zip set c in match opens set first with Opened => Ok set | _ => try_zip set first cs end
    end.
  (** ZipMountSource._find_password, zip.py 104-130: the password that is set at the end *)
  Definition find_zip (passwords : list str) : res (option str) :=
    match infolist None with
    | [] => Ok (fst (show_entries None passwords))  (* without entries there is no file either, zip.py 116-118 *)
    | files =>
      match filter is_file files with
      | [] => Ok None
      | first :: _ => try_zip None first (None :: map Some passwords)
      end
    end.

  (** py7zr.py 161-169 *)
  Fixpoint try_seven (first : entry) (candidates : list (option str)) : res (option str) :=
    match candidates with
    | [] => Err RuntimeError
    | c :: cs => match opens c first with Opened => Ok c | _ => try_seven first cs end
    end.
  (** Py7zrMountSource._find_password, py7zr.py 143-169: the password of the returned object *)
  Definition find_seven (passwords : list str) : res (option str) :=
    match infolist None with
    | [] => Ok (fst (show_entries None passwords))
    | files =>
      match filter is_file files with
      | [] => Ok None
      | first :: _ => try_seven first (None :: map Some passwords)
      end
    end.

  (** rar.py 79-88; PasswordRequired is an RuntimeError here *)
  Fixpoint try_rar (first : entry) (passwords : list str) : res (option str) :=
    match passwords with
    | [] => Err RuntimeError
    | p :: ps => match opens (Some p) first with Opened => Ok (Some p) | Refused => try_rar first ps | Fails e => Err e end
    end.
  (** RarMountSource._find_password, rar.py 61-88 *)
  Definition find_rar (needs_password : bool) (passwords : list str) : res (option str) :=
    if negb needs_password then Ok None
    else
      match infolist None with
      | [] => Ok (fst (show_entries None passwords))
      | files =>
        match filter is_file files with
        | [] => Ok None
        | first :: _ => try_rar first passwords
        end
      end.
End Pass.

(** SQLARMountSource.__init__ and _find_password, sqlar.py 173-185 and 223-256: [check p] is whether the table can be read with the key
    that is derived from [p]; [available]: the modules for encryption are installed and the file has a salt. *)
Definition find_sqlar (check : option str -> bool) (available : bool) (passwords : list str) : res (option str) :=
  if check None then Ok None
  else if available then
    match find (fun p => check (Some p)) passwords with Some p => Ok (Some p) | None => Err RuntimeError end
  else Err RuntimeError.
