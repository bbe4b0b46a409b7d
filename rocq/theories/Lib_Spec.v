(** Specification: the members of an archive, each opened as an independent file with a content and a position.  The position never
    leaves the content: seeking before the start or beyond the end stops there. *)
From Verif Require Import PyBase MemFile_Spec Lib_Model.
Local Open Scope Z_scope.

Section Spec.
  Context {A : Type}.
  Variable members : list (list A).

  (** The open files: number of the member and position, or None for a closed file. *)
  Definition open_files := list (option (nat * Z)).

  Definition origin_of (w : whence) : origin := match w with SeekSet => FromStart | SeekCur => FromCurrent | SeekEnd => FromEnd end.

  Fixpoint set_nth {X} (n : nat) (x : X) (l : list X) : list X :=
    match n, l with O, _ :: l => x :: l | S n, y :: l => y :: set_nth n x l | _, [] => [] end.

  (** What a caller sees.  Handles are numbered in the order of the successful opens; a call with a number never given out has no
      answer. *)
  Definition answer_of (files : open_files) (e : event) : open_files * option (reply A) :=
    match e with
    | EOpen m _ =>
      match nth_error members m with
      | Some _ => (files ++ [Some (m, 0)], Some (RHandle (length files)))
      | None => (files, Some (RRaise ValueError))
      end
    | ERead h n =>
      match nth_error files h with
      | Some (Some (m, pos)) =>
        let content := nth m members [] in
        let d := if n <? 0 then skipn (Z.to_nat pos) content else bytes_at content pos n in
        (set_nth h (Some (m, pos + Z.of_nat (length d))) files, Some (RData d))
      | Some None => (files, Some (if n =? 0 then RData [] else RRaise RuntimeError))
      | None => (files, None)
      end
    | ESeek h o w =>
      match nth_error files h with
      | Some (Some (m, pos)) =>
        let content := nth m members [] in
        let p := Z.max 0 (Z.min (Z.of_nat (length content)) (target content pos o (origin_of w))) in
        (set_nth h (Some (m, p)) files, Some (RPos p))
      | Some None => (files, Some (RRaise RuntimeError))
      | None => (files, None)
      end
    | ETell h =>
      match nth_error files h with
      | Some (Some (_, pos)) => (files, Some (RPos pos))
      | Some None => (files, Some (RPos 0))
      | None => (files, None)
      end
    | EClose h =>
      match nth_error files h with
      | Some _ => (set_nth h None files, Some RDone)
      | None => (files, None)
      end
    end.

  Fixpoint answers (files : open_files) (es : list event) : list (option (reply A)) :=
    match es with [] => [] | e :: es => let '(files, r) := answer_of files e in r :: answers files es end.

  (** The number of files that were opened. *)
  Definition number_of_handles (rs : list (option (reply A))) : nat :=
    length (filter (fun r => match r with Some (RHandle _) => true | _ => false end) rs).

  (** Members are opened with their real size, and only nonempty ones. *)
  Definition opens_nonempty (e : event) : Prop :=
    match e with
    | EOpen m size => forall content, nth_error members m = Some content -> content <> [] /\ size = Z.of_nat (length content)
    | _ => True
    end.
End Spec.
