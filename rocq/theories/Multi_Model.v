(** Model of mounting several sources side by side, FuseMount._create_multi_mount with --disable-union-mount
    (/repo/ratarmount/FuseMount.py 461-476), and of the constructor of SubvolumesMountSource
    (/repo/core/ratarmountcore/mountsource/compositing/subvolumes.py 12-20). *)
From Coq Require Import Ascii String.
From Verif Require Import PyBase PyDict PyStr PyInt Path_Model Subvol_Model.

Section Multi.
  Context {S : Type}.

  (** f"{key}.{suffix}", FuseMount.py 471 *)
  Definition suffixed (key : str) (suffix : nat) : str := key ++ $"." ++ py_str (Z.of_nat suffix).

  (** The while loop, FuseMount.py 471-472; [None]: not finished within the fuel. *)
  Fixpoint free_suffix (fuel : nat) (d : list (str * S)) (key : str) (suffix : nat) : option nat :=
    match fuel with
    | O => None
    | Datatypes.S f => if dmem str_eqb d (suffixed key suffix) then free_suffix f d key (suffix + 1) else Some suffix
    end.

  (** The for loop, FuseMount.py 467-475: the dictionary and the suffix, which is not reset. *)
  Fixpoint unique_keys (sources : list (str * S)) (d : list (str * S)) (suffix : nat) : res (list (str * S)) :=
    match sources with
    | [] => Ok d
    | (key, s) :: r =>
        if dmem str_eqb d key
        then match free_suffix (length d + 1) d key suffix with
             | None => Err OutOfFuel
             | Some n => unique_keys r (dset str_eqb d (suffixed key n) s) n
             end
        else unique_keys r (dset str_eqb d key s) suffix
    end.

  (** SubvolumesMountSource.__init__, subvolumes.py 19-20: what [mount] returns is ignored, its exceptions are not. *)
  Fixpoint mount_each (l : list (str * S)) (n : node S) : res (node S) :=
    match l with
    | [] => Ok n
    | (path, s) :: r => let '(n', a) := mount path s n in match a with Err e => Err e | Ok _ => mount_each r n' end
    end.

  (** _create_multi_mount without union mount, FuseMount.py 465-476 *)
  Definition create_multi_mount (sources : list (str * S)) : res (node S) :=
    bind (unique_keys sources [] 1) (fun d => mount_each d empty).
End Multi.

(** FuseMount.__init__ with the control interface, FuseMount.py 237-245: the control layer is appended under the key "/". *)
Definition with_control {S} (sources : list (str * S)) (control : S) : list (str * S) := sources ++ [($"/", control)].
