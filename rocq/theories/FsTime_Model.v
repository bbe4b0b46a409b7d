(** Model of [FSSpecMountSource._get_modification_time] (core/ratarmountcore/mountsource/formats/fsspec.py) with what it uses of time.strptime,
    time.mktime and datetime.timestamp of the Python standard library.  Texts are lists of code points. *)
From Coq Require Import ZArith List Bool Lia.
From Verif Require Import PyBase.
Import ListNotations.
Local Open Scope Z_scope.

(** Year, month, day, hour, minute, second: datetime.datetime or time.struct_time, as used in fsspec.py 132-136; fractions of seconds are left out. *)
Record fields := mkFields { f_year : Z; f_month : Z; f_day : Z; f_hour : Z; f_minute : Z; f_second : Z }.

(** Seconds since the epoch if the fields are in UTC: datetime.date.toordinal (days before the year, days before the month), used by the calls in
    fsspec.py 133 and 136. *)
Definition leap (y : Z) : bool := (y mod 4 =? 0) && (negb (y mod 100 =? 0) || (y mod 400 =? 0)).
Definition month_lengths (y : Z) : list Z := [31; if leap y then 29 else 28; 31; 30; 31; 30; 31; 31; 30; 31; 30; 31].
Definition before_year (y : Z) : Z := (y - 1) * 365 + (y - 1) / 4 - (y - 1) / 100 + (y - 1) / 400.
Definition before_month (y m : Z) : Z := fold_right Z.add 0 (firstn (Z.to_nat (m - 1)) (month_lengths y)).
Definition ordinal (y m d : Z) : Z := before_year y + before_month y m + d.
Definition timegm (f : fields) : Z :=
  (ordinal (f_year f) (f_month f) (f_day f) - 719163) * 86400 + f_hour f * 3600 + f_minute f * 60 + f_second f.

(** The regular expression of time.strptime for the format of fsspec.py 136: per directive the alternatives, each a list of ranges of characters;
    only ASCII digits are modelled. *)
Definition digit : Z * Z := (48, 57).
Definition directives : list (list (list (Z * Z))) :=
  [ [[digit; digit; digit; digit]];
    [[(49, 49); (48, 50)]; [(48, 48); (49, 57)]; [(49, 57)]];
    [[(51, 51); (48, 49)]; [(49, 50); digit]; [(48, 48); (49, 57)]; [(49, 57)]; [(32, 32); (49, 57)]];
    [[(50, 50); (48, 51)]; [(48, 49); digit]; [digit]];
    [[(48, 53); digit]; [digit]];
    [[(54, 54); (48, 49)]; [(48, 53); digit]; [digit]] ].
Fixpoint take (cs : list (Z * Z)) (s : list Z) : option (list Z * list Z) :=
  match cs, s with
  | [], _ => Some ([], s)
  | (lo, hi) :: cs, c :: s => if (lo <=? c) && (c <=? hi) then match take cs s with Some (v, r) => Some (c :: v, r) | None => None end else None
  | _ :: _, [] => None
  end.
Fixpoint first_some {B} (l : list (option B)) : option B := match l with [] => None | Some x :: _ => Some x | None :: l => first_some l end.
Fixpoint match_fields (fs : list (list (list (Z * Z)))) (s : list Z) : option (list (list Z) * list Z) :=
  match fs with
  | [] => Some ([], s)
  | f :: fs => first_some (map (fun cs => match take cs s with
                                          | None => None
                                          | Some (v, r) => match match_fields fs r with None => None | Some (vs, e) => Some (v :: vs, e) end
                                          end) f)
  end.
(** int() of what a directive matched (a blank is skipped) *)
Definition number (v : list Z) : Z := fold_left (fun n c => if c =? 32 then n else n * 10 + (c - 48)) v 0.
(** time.strptime as called in fsspec.py 136: ValueError if nothing matches, if data remain, or if there is no such date *)
Definition strptime (s : list Z) : res fields :=
  match match_fields directives s with
  | Some ([y; m; d; h; mi; sec], []) =>
      let f := mkFields (number y) (number m) (number d) (number h) (number mi) (number sec) in
      if (1 <=? f_year f) && (f_day f <=? nth (Z.to_nat (f_month f - 1)) (month_lengths (f_year f)) 0) then Ok f else Err ValueError
  | _ => Err ValueError
  end.

(** The values of the dictionary of an entry: 'mtime' is a datetime (with its offset from UTC, or none) or a number, 'modify' a text or not. *)
Inductive mtime_value := DateTime (f : fields) (offset : option Z) | Number (t : Z).
Inductive modify_value := Written (s : list Z) | Other.

Section Zone.
  (** The local time zone: its offset from UTC at a local time (given as seconds).  For local times that occur twice or not at all, it is any choice. *)
  Variable zone : Z -> Z.

  (** time.mktime, fsspec.py 136 *)
  Definition mktime (f : fields) : Z := timegm f - zone (timegm f).
  (** datetime.timestamp, fsspec.py 133 *)
  Definition timestamp (f : fields) (offset : option Z) : Z := match offset with Some o => timegm f - o | None => mktime f end.
  (** [_get_modification_time], fsspec.py 122-137 *)
  Definition modification_time (mtime : option mtime_value) (modify : option modify_value) : res Z :=
    match mtime with
    | Some (DateTime f o) => Ok (timestamp f o)
    | Some (Number t) => Ok t
    | None =>
        match modify with
        | Some (Written s) => match strptime s with Ok f => Ok (mktime f) | Err e => Err e end
        | _ => Ok 0
        end
    end.
End Zone.
