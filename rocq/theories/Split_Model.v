(** Model of the detection of split files: /repo/core/ratarmountcore/compressions.py 267-349 and
    /repo/core/ratarmountcore/utils.py 185-209.

    [real_name path] is os.path.split(os.path.realpath(path))[1], which depends on the file system. *)
From Coq Require Import Ascii String.
From Verif Require Import PyBase PyStr.

Definition lowercase : str := $"abcdefghijklmnopqrstuvwxyz".
Definition decimal : str := $"0123456789".
(** utils.py 185 *)
Definition hexadecimal : str := $"0123456789abcdef".

Definition between (a b c : ascii) : bool := (nat_of_ascii a <=? nat_of_ascii c) && (nat_of_ascii c <=? nat_of_ascii b).
Definition nonempty (s : str) : bool := match s with [] => false | _ => true end.
(** utils.py 188-197 *)
Definition is_latin_alpha (s : str) : bool := nonempty s && forallb (between "a" "z") s.
Definition is_latin_digit (s : str) : bool := nonempty s && forallb (between "0" "9") s.
Definition is_latin_hex_alpha (s : str) : bool := nonempty s && forallb (fun c => between "0" "9" c || between "a" "f" c) s.

(** format_number, utils.py 200-209: the loop builds the digits from the last one on; [result] is reversed here.  Lengths are
    natural numbers: a length below zero behaves as zero.  [None]: not finished within the fuel. *)
Fixpoint format_loop (fuel i : nat) (base : str) (length : nat) (started : bool) : option str :=
  match fuel with
  | O => None
  | S f => if (0 <? i) || (0 <? length) || negb started
           then option_map (cons (nth (i mod List.length base) base "?"%char))
                  (format_loop f (i / List.length base) base (length - 1) true)
           else Some []
  end.
Definition format_number (i : nat) (base : str) (length : nat) : res str :=
  if List.length base <=? 1 then Err ValueError
  else match format_loop (i + length + 2) i base length false with Some r => Ok (rev r) | None => Err OutOfFuel end.

(** has_matching_alphabets, compressions.py 267-272 *)
Definition has_matching_alphabets (a b : str) : bool :=
  (is_latin_alpha a && is_latin_alpha b) || (is_latin_digit a && is_latin_digit b) || (is_latin_hex_alpha a && is_latin_hex_alpha b).

Definition mem (s : str) (l : list str) : bool := existsb (str_eqb s) l.

(** check_for_sequence, compressions.py 275-290 *)
Fixpoint sequence_loop (fuel i : nat) (extensions : list str) (base : str) (length suffixLength : nat) : res (list str) :=
  match fuel with
  | O => Err OutOfFuel
  | S f => bind (format_number i base length) (fun suffix =>
             if mem suffix extensions
             then bind (sequence_loop f (i + 1) extensions base length suffixLength) (fun r => Ok (suffix :: r))
             else if (0 <? i) || negb (List.length suffix =? suffixLength) then Ok []
                  else sequence_loop f (i + 1) extensions base length suffixLength)
  end.
Definition check_for_sequence (extensions : list str) (base : str) (length : nat) : res (list str) :=
  bind (format_number 0 base length) (fun zeroth =>
    sequence_loop (List.length extensions + 2) 0 extensions base length (List.length zeroth)).

(** The loop over the formats, compressions.py 336-343 *)
Fixpoint best_sequence (formats : list (str * str)) (extensions : list str) (length : nat) (best : str * list str) : res (str * list str) :=
  match formats with
  | [] => Ok best
  | (specifier, base) :: r =>
      bind (check_for_sequence extensions base length) (fun s =>
        best_sequence r extensions length (if List.length (snd best) <? List.length s then (specifier, s) else best))
  end.
Definition formats : list (str * str) := [($"a", lowercase); ($"0", decimal); ($"x", hexadecimal)].

(** check_for_split_file_in, compressions.py 293-349 *)
Definition check_for_split_file_in (real_name : str -> str) (path : str) (candidates : list str) : res (option (list str * str)) :=
  match rsplit1 dotc (real_name path) with
  | None => Ok None
  | Some (basename, extension) =>
      let found := map (skipn (List.length basename + 1)) (filter (starts_with (basename ++ [dotc])) candidates) in
      let extensions := filter (fun e => has_matching_alphabets e extension) found in
      match extensions with
      | [] => Ok None
      | _ =>
          if negb (mem extension extensions) then Err AssertionError
          else bind (best_sequence formats extensions (List.length extension) ([], [])) (fun '(specifier, best) =>
                 if nonempty specifier && (1 <? List.length best)
                 then let stem := match rsplit1 dotc path with Some (a, _) => a | None => path end in
                      Ok (Some (map (fun e => stem ++ [dotc] ++ e) best, specifier))
                 else Ok None)
      end
  end.
