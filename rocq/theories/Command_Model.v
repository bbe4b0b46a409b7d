(** Model of the control file: /repo/ratarmount/FuseMount.py 36-87.  Bytes are characters of the model.

    [decode] is bytes.decode (UTF-8), [None] if it raises UnicodeDecodeError.  The callback (_parse_command, FuseMount.py 614-)
    is not modelled beyond whether it is called and with what. *)
From Coq Require Import Ascii String.
From Verif Require Import PyBase PyStr.

Section Command.
  Context {T : Type}.
  Variable decode : str -> option T.

  Definition newline : ascii := ascii_of_nat 10.
  Definition nul : ascii := ascii_of_nat 0.
  Definition space : ascii := ascii_of_nat 32.
  Definition is_delimiter (c : ascii) : bool := char_eqb c nul || char_eqb c newline || char_eqb c space.

  Fixpoint decode_all (l : list str) : res (list T) :=
    match l with
    | [] => Ok []
    | p :: r => match decode p with None => Err UnicodeError | Some t => bind (decode_all r) (fun ts => Ok (t :: ts)) end
    end.

  (** command[-1] == '\n' and command[:-1], FuseMount.py 51-52 *)
  Definition without_last_newline (s : str) : str :=
    match rev s with c :: r => if char_eqb c newline then rev r else s | [] => s end.

  (** split_command_line, FuseMount.py 36-54 *)
  Definition split_command_line (command name : str) : res (list T) :=
    if negb (starts_with name command) then Err ValueError
    else match skipn (length name) command with
         | [] => decode_all [name]
         | delimiter :: command' =>
             if negb (is_delimiter delimiter) then Err ValueError
             else let command'' := if char_eqb delimiter space then without_last_newline command' else command' in
                  decode_all (split delimiter command'')
         end.

  (** CommandFile, FuseMount.py 57-87: the buffer, whether closed, and the calls of the callback so far.  [fails] says whether
      the callback raises for these arguments. *)
  Record cfile := mkC { c_buffer : str; c_closed : bool; c_calls : list (list T) }.
  Definition new_file : cfile := mkC [] false [].

  Variable fails : list T -> bool.

  (** write, FuseMount.py 65-69; FuseMount.write (857-876) passes the data without the offset, as the file is not seekable. *)
  Definition cwrite (f : cfile) (data : str) : res nat * cfile :=
    if c_closed f then (Err ValueError, f)
    else (Ok (length data), mkC (c_buffer f ++ data) false (c_calls f)).

  (** close, FuseMount.py 71-84 *)
  Definition cclose (f : cfile) : res unit * cfile :=
    if c_closed f then (Ok tt, f)
    else match c_buffer f with
         | [] => (Ok tt, mkC [] true (c_calls f))
         | _ => match split_command_line (c_buffer f) $"ratarmount" with
                | Err _ => (Err ValueError, mkC (c_buffer f) true (c_calls f))
                | Ok args => (if fails args then Err ValueError else Ok tt, mkC (c_buffer f) true (c_calls f ++ [args]))
                end
         end.

  Inductive cop := CWrite (data : str) | CClose.
  Definition cstep (f : cfile) (o : cop) : bool * cfile :=
    match o with
    | CWrite d => let '(r, f') := cwrite f d in (is_ok r, f')
    | CClose => let '(r, f') := cclose f in (is_ok r, f')
    end.

  (** Which calls succeeded, and the final state. *)
  Fixpoint cplay (f : cfile) (l : list cop) : list bool * cfile :=
    match l with
    | [] => ([], f)
    | o :: r => let '(b, f1) := cstep f o in let '(bs, f2) := cplay f1 r in (b :: bs, f2)
    end.
End Command.
