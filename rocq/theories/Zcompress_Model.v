(** Model of [compress_zstd], /repo/core/ratarmountcore/compressions.py 360-385, as a transition system: the caller, which reads the
    file and writes the frames, and the workers of the pool, which compress in any order and at any time.  [compress] is one call of
    ZstdCompressor().compress.

    Not modelled: exceptions of the workers and of the files; how many workers run at once only restricts the schedules. *)
From Verif Require Import PyBase.
Local Open Scope Z_scope.

Section Zstd.
  Context {A : Type}.
  Variable compress : list A -> list A.
  Variable frameSize : Z.
  Variable parallelization : Z.

  (** Where the caller is: at file.read, in the inner loop, in the last loop, at the end. *)
  Inductive where_ := Reading | Writing | Draining | Finished.

  (** [z_results]: the submitted chunks and whether their future is done, the oldest first. *)
  Record zstate := mkZ { z_at : where_; z_left : list A; z_results : list (list A * bool); z_out : list A }.

  (** file.read(frameSize): everything for negative sizes *)
  Definition read_chunk (left_ : list A) : list A * list A :=
    if frameSize <? 0 then (left_, []) else (ztake frameSize left_, zskip frameSize left_).

  (** One step of the caller, compressions.py 377-385; None: it has to wait, or is finished.  results.pop(0).result() needs the oldest one. *)
  Definition pop (next : where_) (s : zstate) : option zstate :=
    match z_results s with
    | (c, true) :: r => Some (mkZ next (z_left s) r (z_out s ++ compress c))
    | _ => None
    end.
  Definition caller (s : zstate) : option zstate :=
    match z_at s with
    | Reading =>
        match read_chunk (z_left s) with
        | ([], _) => Some (mkZ Draining (z_left s) (z_results s) (z_out s))
        | (c, rest) => Some (mkZ Writing rest (z_results s ++ [(c, false)]) (z_out s))
        end
    | Writing => if len (z_results s) >=? parallelization then pop Writing s else Some (mkZ Reading (z_left s) (z_results s) (z_out s))
    | Draining => match z_results s with [] => Some (mkZ Finished (z_left s) [] (z_out s)) | _ => pop Draining s end
    | Finished => None
    end.

  (** One worker finishes some chunk. *)
  Inductive step : zstate -> zstate -> Prop :=
  | by_caller s t : caller s = Some t -> step s t
  | by_worker w l o a c b : step (mkZ w l (a ++ (c, false) :: b) o) (mkZ w l (a ++ (c, true) :: b) o).
  Inductive steps : zstate -> zstate -> Prop :=
  | no_step s : steps s s
  | more_steps s t u : steps s t -> step t u -> steps s u.

  Definition start (content : list A) : zstate := mkZ Reading content [] [].
End Zstd.
