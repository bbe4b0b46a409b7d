(** Model of the times of the entries of ZIP and RAR archives: core/ratarmountcore/mountsource/formats/zip.py 43-48 and rar.py 96-101, with what they
    use of zipfile and datetime of the Python standard library. *)
From Coq Require Import ZArith List Bool Lia.
From Verif Require Import PyBase FsTime_Model.
Import ListNotations.
Local Open Scope Z_scope.

(** [ZipInfo.date_time] (used in zip.py 48) as ZipFile reads it from the date and the time of the central directory:
    ((d>>9)+1980, (d>>5)&0xF, d&0x1F, t>>11, (t>>5)&0x3F, (t&0x1F)*2). *)
Definition date_time (d t : Z) : fields :=
  mkFields (Z.shiftr d 9 + 1980) (Z.land (Z.shiftr d 5) 15) (Z.land d 31) (Z.shiftr t 11) (Z.land (Z.shiftr t 5) 63) (Z.land t 31 * 2).

(** The constructor of datetime.datetime, called in zip.py 48 and rar.py 97: ValueError if a field is out of range. *)
Definition datetime (f : fields) : res fields :=
  if (1 <=? f_year f) && (f_year f <=? 9999) && (1 <=? f_month f) && (f_month f <=? 12) &&
     (1 <=? f_day f) && (f_day f <=? nth (Z.to_nat (f_month f - 1)) (month_lengths (f_year f)) 0) &&
     (0 <=? f_hour f) && (f_hour f <=? 23) && (0 <=? f_minute f) && (f_minute f <=? 59) && (0 <=? f_second f) && (f_second f <=? 59)
  then Ok f else Err ValueError.
(** The time as it is computed in zip.py 48; ZipInfo.date_time is never empty. *)
Definition zip_mtime (d t : Z) : res Z := match datetime (date_time d t) with Ok f => Ok (timegm f) | Err e => Err e end.
(** RarMountSource._convert_to_file_info, rar.py 96-101 *)
Definition rar_mtime (date_time : option fields) : res Z :=
  match date_time with
  | Some f => match datetime f with Ok f => Ok (timegm f) | Err e => Err e end
  | None => Ok 0
  end.

(** The list of rows made in ZipMountSource.__init__, zip.py 43-45, of which only the times are shown here: an error ends it. *)
Fixpoint zip_mtimes (l : list (Z * Z)) : res (list Z) :=
  match l with
  | [] => Ok []
  | (d, t) :: l => match zip_mtime d t with
                   | Ok x => match zip_mtimes l with Ok xs => Ok (x :: xs) | Err e => Err e end
                   | Err e => Err e
                   end
  end.
