(** Model of the directories of the FAT driver: /repo/core/ratarmountcore/_external/pyfatfs/{PyFat,FATDirectoryEntry,EightDotThree,DosDateTime}.py *)
From Verif Require Import PyBase Fat_Model.
Local Open Scope Z_scope.

(** ** Entries *)

(** one item of FATLongDirectoryEntry.lfn_entries, FATDirectoryEntry.py 581-590: the layout "<B10sBBB12sH4s".  [l_name] is LDIR_Name1 + LDIR_Name2 + LDIR_Name3;
    the type is not used. *)
Record lfn_part := mkLfn { l_ord : Z; l_attr : Z; l_chksum : Z; l_cluster : Z; l_name : list Z }.
Definition lfn_of_slot (slot : list Z) : lfn_part :=
  mkLfn (field slot 0 1) (field slot 11 1) (field slot 13 1) (field slot 26 2) (zslice slot 1 10 ++ zslice slot 14 12 ++ zslice slot 28 4).
(** FATDirectoryEntry, FATDirectoryEntry.py 45-115: the layout "<11sBBBHHHHHHHL"; the fields that the mount source does not show are left out.  The dictionary of
    long name parts is a list in the order of insertion. *)
Record dentry := mkDentry { d_name : list Z; d_attr : Z; d_cluster_hi : Z; d_wrttime : Z; d_wrtdate : Z; d_cluster_lo : Z; d_size : Z; d_lfn : option (list lfn_part) }.

(** EightDotThree.checksum, EightDotThree.py 110-119 *)
Definition checksum (name : list Z) : Z :=
  fold_left (fun c b => Z.land (Z.lor (Z.shiftr c 1) (Z.shiftl (Z.land c 1) 7) + b) 255) name 0.

(** FATLongDirectoryEntry.is_lfn_entry, FATDirectoryEntry.py 649-661 *)
Definition is_lfn_entry (ord attr : Z) : bool := (Z.land attr 63 =? 15) && negb (ord =? 229).
(** add_lfn_entry, FATDirectoryEntry.py 663-699; EFAULT is 14, NotAnLFNEntryException is KeyError here *)
Definition add_lfn_entry (tmp : list lfn_part) (p : lfn_part) : res (list lfn_part) :=
  if negb (is_lfn_entry (l_ord p) (l_attr p)) then Err KeyError
  else if negb (l_cluster p =? 0) then Err (OSErr 14)
  else if existsb (fun q => l_ord q =? l_ord p) tmp then Err (OSErr 0)
  else Ok (tmp ++ [p]).
(** is_lfn_entry_complete, FATDirectoryEntry.py 701-710 *)
Definition is_complete (tmp : list lfn_part) : bool := existsb (fun q => Z.land (l_ord q) 64 =? 64) tmp.
(** set_lfn_entry, FATDirectoryEntry.py 201-219, and its use in the constructor, 105-111 *)
Definition accept_lfn (name : list Z) (lfn : option (list lfn_part)) : option (list lfn_part) :=
  match lfn with
  | None => None
  | Some parts => if forallb (fun p => l_chksum p =? checksum name) parts then Some parts else None
  end.

(** the body of the loop of parse_dir_entries_in_address, PyFat.py 469-515.  The sub directories are read when they are asked for (lazy_load). *)
Inductive slot_result := Continue (tmp : list lfn_part) | Stop | Got (d : dentry).
Definition parse_slot (slot : list Z) (tmp : list lfn_part) : res slot_result :=
  if negb (len slot =? 32) then Err StructError
  else
    let first := field slot 0 1 in
    let attr := field slot 11 1 in
    if first =? 229 then Ok (Continue [])
    else if first =? 0 then Ok Stop
    else if is_lfn_entry first attr then
      match add_lfn_entry tmp (lfn_of_slot slot) with Err e => Err e | Ok tmp => Ok (Continue tmp) end
    else
      let name := zslice slot 0 11 in
      let lfn := if is_complete tmp then Some tmp else None in
      Ok (Got (mkDentry name attr (field slot 20 2) (field slot 22 2) (field slot 24 2) (field slot 26 2) (field slot 28 4) (accept_lfn name lfn))).
Fixpoint parse_slots (slots : list (list Z)) (tmp : list lfn_part) (acc : list dentry) : res (list dentry * list lfn_part) :=
  match slots with
  | [] => Ok (acc, tmp)
  | slot :: slots =>
    match parse_slot slot tmp with
    | Err e => Err e
    | Ok (Continue tmp) => parse_slots slots tmp acc
    | Ok Stop => Ok (acc, [])
    | Ok (Got d) => parse_slots slots [] (acc ++ [d])
    end
  end.
(** parse_dir_entries_in_address, PyFat.py 452-516, for a range of [n] slots: each is read with seek and read *)
Definition slots_at (image : list Z) (address : Z) (n : nat) : list (list Z) := map (fun i => zslice image (address + 32 * Z.of_nat i) 32) (seq 0 n).
Definition parse_in_address (image : list Z) (address : Z) (n : nat) (tmp : list lfn_part) : res (list dentry * list lfn_part) := parse_slots (slots_at image address n) tmp [].

(** parse_dir_entries_in_cluster_chain, PyFat.py 518-532.  [fuel] bounds the length of the chain: a chain that comes back to itself is followed without end. *)
Fixpoint parse_in_chain (image : list Z) (v : volume) (table : list Z) (fuel : nat) (from : option Z) (tmp : list lfn_part) (acc : list dentry) : res (list dentry) :=
  match fuel with
  | O => Err OutOfFuel
  | S fuel =>
    match from with
    | None => Ok acc
    | Some i =>
      match chain_step (v_type v) table i with
      | Err e => Err e
      | Ok None => Ok acc
      | Ok (Some (c, next)) =>
        match parse_in_address image (cluster_address v c) (Z.to_nat (bytes_per_cluster_of v / 32)) tmp with
        | Err e => Err e
        | Ok (entries, tmp) => parse_in_chain image v table fuel next tmp (acc ++ entries)
        end
      end
    end
  end.

(** the entries of the root directory: _fat12_parse_root_dir and _fat32_parse_root_dir, PyFat.py 364-396 *)
Definition root_entries (image : list Z) (v : volume) (table : list Z) (fuel : nat) : res (list dentry) :=
  match v_type v with
  | FAT32 => parse_in_chain image v table fuel (Some (h_root_clus (v_header v))) [] []
  | _ => match parse_in_address image (v_root_dir_sector v * h_bytes_per_sec (v_header v)) (Z.to_nat (h_root_ent (v_header v))) [] with
         | Err e => Err e
         | Ok (entries, _) => Ok entries
         end
  end.

(** ** Names *)
Section Names.
  (** the OEM encoding, ibm437: a code point for each byte; and str.isspace, by which rstrip goes *)
  Variable oem : Z -> Z.
  Variable is_space : Z -> bool.

  Fixpoint drop_space (l : list Z) : list Z := match l with [] => [] | c :: r => if is_space c then drop_space r else l end.
  Definition rstrip (l : list Z) : list Z := rev (drop_space (rev l)).
  (** EightDotThree.__str__, EightDotThree.py 35-46 *)
  Definition short_name (d : dentry) : list Z :=
    let name := match d_name d with b :: r => (if b =? 5 then 229 else b) :: r | [] => [] end in
    let base := rstrip (map oem (zslice name 0 8)) in
    let ext := rstrip (map oem (zslice name 8 3)) in
    base ++ (if 0 <? len ext then [46] else []) ++ ext.

  (** FATLongDirectoryEntry.get_entries, FATDirectoryEntry.py 599-608: sorted by the ordinal *)
  Fixpoint insert_part (p : lfn_part) (l : list lfn_part) : list lfn_part :=
    match l with [] => [p] | q :: r => if l_ord p <=? l_ord q then p :: l else q :: insert_part p r end.
  Definition sorted_parts (l : list lfn_part) : list lfn_part := fold_right insert_part [] l.
  (** "while name.endswith(b'\xFF\xFF'): name = name[:-2]" *)
  Fixpoint drop_pad (reversed : list Z) : list Z :=
    match reversed with
    | a :: b :: r => if (a =? 255) && (b =? 255) then drop_pad r else reversed
    | l => l
    end.
  (** bytes.decode("utf-16-le") *)
  Fixpoint decode_utf16 (bytes : list Z) : res (list Z) :=
    match bytes with
    | [] => Ok []
    | [_] => Err UnicodeError
    | a :: b :: r =>
      let u := a + 256 * b in
      if (55296 <=? u) && (u <=? 56319) then
        match r with
        | c :: d :: r =>
          let w := c + 256 * d in
          if (56320 <=? w) && (w <=? 57343) then
            match decode_utf16 r with Err e => Err e | Ok l => Ok (65536 + (u - 55296) * 1024 + (w - 56320) :: l) end
          else Err UnicodeError
        | _ => Err UnicodeError
        end
      else if (56320 <=? u) && (u <=? 57343) then Err UnicodeError
      else match decode_utf16 r with Err e => Err e | Ok l => Ok (u :: l) end
    end.
  (** FATLongDirectoryEntry.__str__, FATDirectoryEntry.py 627-646 *)
  Definition parts_name (parts : list lfn_part) : res (list Z) :=
    let name := concat (map l_name (sorted_parts parts)) in
    let name := rev (drop_pad (rev name)) in
    match decode_utf16 name with
    | Err e => Err e
    | Ok name => Ok (match rev name with 0 :: r => rev r | _ => name end)
    end.
  (** get_long_name, FATDirectoryEntry.py 568-578: None stands for NotAnLFNEntryException *)
  Definition long_name (d : dentry) : option (res (list Z)) := option_map parts_name (d_lfn d).
  (** __repr__, FATDirectoryEntry.py 551-559 *)
  Definition shown_name (d : dentry) : res (list Z) := match long_name d with Some n => n | None => Ok (short_name d) end.
End Names.

(** get_cluster, FATDirectoryEntry.py 260-265 *)
Definition get_cluster (d : dentry) : Z := d_cluster_lo d + Z.shiftl (d_cluster_hi d) 16.
(** is_directory, is_volume_id, FATDirectoryEntry.py 366-371, 383-388 *)
Definition is_directory (d : dentry) : bool := 0 <? Z.land 16 (d_attr d).
Definition is_volume_id (d : dentry) : bool := 0 <? Z.land 8 (d_attr d).

(** ** Times *)
Definition is_leap (y : Z) : bool := (y mod 4 =? 0) && (negb (y mod 100 =? 0) || (y mod 400 =? 0)).
Definition days_in_month (y m : Z) : Z :=
  if m =? 2 then (if is_leap y then 29 else 28) else if (m =? 4) || (m =? 6) || (m =? 9) || (m =? 11) then 30 else 31.
(** DosDateTime.deserialize_date and deserialize_time, DosDateTime.py 33-56; the ValueError of datetime and time leads to a default *)
Definition deserialize_date (dt : Z) : Z * Z * Z :=
  let day := Z.land dt (Z.shiftl 1 5 - 1) in
  let month := Z.land (Z.shiftr dt 5) (Z.shiftl 1 4 - 1) in
  let year := Z.land (Z.shiftr dt 9) (Z.shiftl 1 7 - 1) + 1980 in
  if (1 <=? month) && (month <=? 12) && (1 <=? day) && (day <=? days_in_month year month) then (year, month, day) else (1980, 1, 1).
Definition deserialize_time (tm : Z) : Z * Z * Z :=
  let second := Z.land tm (Z.shiftl 1 5 - 1) * 2 in
  let minute := Z.land (Z.shiftr tm 5) (Z.shiftl 1 6 - 1) in
  let hour := Z.land (Z.shiftr tm 11) (Z.shiftl 1 5 - 1) in
  if (hour <=? 23) && (minute <=? 59) && (second <=? 59) then (hour, minute, second) else (0, 0, 0).
(** get_mtime, FATDirectoryEntry.py 181-183, 189-192 *)
Definition get_mtime (d : dentry) : (Z * Z * Z) * (Z * Z * Z) := (deserialize_date (d_wrtdate d), deserialize_time (d_wrttime d)).

(** PyFat.set_fp, PyFat.py 163-193, up to the root directory; the dirty flag only leads to a warning *)
Definition open_volume (image : list Z) : res (volume * list Z) :=
  match parse_header image with
  | Err e => Err e
  | Ok v => match first_fat image v with
            | Err e => Err e
            | Ok fat => match parse_fat (v_type v) fat with Err e => Err e | Ok table => Ok (v, table) end
            end
  end.
