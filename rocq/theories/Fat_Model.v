(** Model of the FAT driver that is part of the sources, /repo/core/ratarmountcore/_external/pyfatfs: the file allocation table and the file
    object.  Bytes are integers; the image is read with seek and read of the file object it is opened from, which is a slice here. *)
From Verif Require Import PyBase.
Local Open Scope Z_scope.

(** ** The table *)

(** FAT_TYPE_FAT12, FAT_TYPE_FAT16 and FAT_TYPE_FAT32, PyFat.py 34-39 *)
Inductive fat_type := FAT12 | FAT16 | FAT32.
(** FAT12_CLUSTER_VALUES, FAT16_CLUSTER_VALUES, FAT32_CLUSTER_VALUES, PyFat.py 48-73: the largest number of a data cluster, the mark of a
    bad cluster, and the marks of an end *)
Definition max_data (t : fat_type) : Z := match t with FAT12 => 4079 | FAT16 => 65519 | FAT32 => 268435439 end.
Definition bad_mark (t : fat_type) : Z := match t with FAT12 => 4087 | FAT16 => 65527 | FAT32 => 268435447 end.
Definition eoc_min (t : fat_type) : Z := match t with FAT12 => 4088 | FAT16 => 65528 | FAT32 => 268435448 end.
Definition eoc_max (t : fat_type) : Z := match t with FAT12 => 4095 | FAT16 => 65535 | FAT32 => 268435455 end.
(** FAT12_SPECIAL_EOC, PyFat.py 54 *)
Definition special_eoc : Z := 4080.

(** struct.unpack of an unsigned little-endian integer *)
Fixpoint le (bytes : list Z) : Z := match bytes with [] => 0 | b :: r => b + 256 * le r end.

(** PyFat._parse_fat, PyFat.py 266-316, from the bytes of the first FAT.  [curr] is cluster * fat_type / 8; as it is a multiple of one half,
    the floating point numbers are exact.  [table] holds what has been set so far, [total] is the length of self.fat. *)
Definition ljust2 (l : list Z) : list Z := match l with [] => [0; 0] | [a] => [a; 0] | l => l end.
Fixpoint parse12 (fuel : nat) (fat : list Z) (fat_size total : Z) (cluster : Z) (table : list Z) : res (list Z) :=
  match fuel with
  | O => Err OutOfFuel
  | S fuel =>
    if 3 * cluster <? 2 * fat_size then
      let first := 3 * cluster / 2 in (* int(curr) *)
      let past := (3 * cluster + 3 + 1) / 2 in (* math.ceil(offset) *)
      let word := le (ljust2 (zslice fat first (past - first))) in
      if total <=? cluster then Ok table (* IndexError: break *)
      else
        let value := if cluster mod 2 =? 0 then Z.land word 4095 else Z.shiftr word 4 in
        if past =? fat_size - 1 then
          (* del self.fat[-1]; break.  The last of the [total] entries is dropped, whether it was set or not *)
          Ok (if total =? cluster + 1 then table else table ++ [value])
        else parse12 fuel fat fat_size total (cluster + 1) (table ++ [value])
    else Ok table
  end.
Fixpoint parse_words (fuel : nat) (t : fat_type) (fat : list Z) (fat_size width : Z) (cluster : Z) (table : list Z) : res (list Z) :=
  match fuel with
  | O => Err OutOfFuel
  | S fuel =>
    if width * cluster <? fat_size then
      let data := zslice fat (width * cluster) width in
      if len data =? width then
        let value := match t with FAT32 => Z.land (le data) 268435455 | _ => le data end in
        parse_words fuel t fat fat_size width (cluster + 1) (table ++ [value])
      else Err StructError
    else Ok table
  end.
(** "if None in self.fat: raise AssertionError", PyFat.py 314-316: the length of self.fat is [total], or one less after the deletion *)
Definition parse_fat (t : fat_type) (fat : list Z) : res (list Z) :=
  let fat_size := len fat in
  match t with
  | FAT12 =>
    let total := 2 * fat_size / 3 in
    match parse12 (S (S (Z.to_nat total))) fat fat_size total 0 [] with
    | Err e => Err e
    | Ok table => if (len table =? total) || (len table =? total - 1) then Ok table else Err AssertionError
    end
  | FAT16 => parse_words (S (Z.to_nat fat_size)) FAT16 fat fat_size 2 0 []
  | FAT32 => parse_words (S (Z.to_nat fat_size)) FAT32 fat fat_size 4 0 []
  end.

(** One step of the generator get_cluster_chain, PyFat.py 541-584, at cluster [i]: it yields a cluster and goes on at another or stops, or it
    ends without yielding.  PyFATException is OSErr, here with number 0: its errno is None. *)
Definition chain_step (t : fat_type) (table : list Z) (i : Z) : res (option (Z * option Z)) :=
  if i <=? len table then
    match (if i <? 0 then None else nth_error table (Z.to_nat i)) with
    | None => Err IndexError
    | Some v =>
      if (2 <=? v) && (v <=? max_data t) then Ok (Some (i, Some v))
      else if (match t with FAT12 => true | _ => false end) && (v =? special_eoc) then Ok (Some (i, None))
      else if (eoc_min t <=? v) && (v <=? eoc_max t) then Ok (Some (i, None))
      else if v =? bad_mark t then Err (OSErr 0)
      else if v =? 0 then Err (OSErr 0)
      else Err (OSErr 0)
    end
  else Ok None.

(** ** The file object *)
Section File.
  Context {A : Type}.
  (** PyFat.read_cluster_contents, PyFat.py 128-139 *)
  Variable read_cluster : Z -> list A.
  Variable t : fat_type.
  Variable table : list Z.
  Variable bytes_per_cluster : Z.
  (** the directory entry: get_cluster() and filesize *)
  Variable first_cluster filesize : Z.

  (** FatIO: __bpos, __cpos, __cindex, __coffpos, FatIO.py 49-57 *)
  Record fat_state := mkFS { f_bpos : Z; f_cpos : Z; f_cindex : Z; f_coffpos : Z }.
  Definition fat_open : fat_state := mkFS 0 first_cluster 0 0.

  (** "for _ in range(0, k): self.__cpos = next(fp)", FatIO.py 107-110; [from] is where the generator goes on.  StopIteration of next is
      RuntimeError here. *)
  Fixpoint pull (k : nat) (from : option Z) (cpos : Z) : res Z :=
    match k with
    | O => Ok cpos
    | S k => match from with
             | None => Err RuntimeError
             | Some i => match chain_step t table i with
                         | Err e => Err e
                         | Ok None => Err RuntimeError
                         | Ok (Some (c, next)) => pull k next c
                         end
             end
    end.

  (** FatIO.seek, FatIO.py 73-112; whence is 0, 1 or 2 *)
  Definition fat_seek (st : fat_state) (offset whence : Z) : res (Z * fat_state) :=
    let offset := if whence =? 1 then offset + f_bpos st else if whence =? 2 then offset + filesize else offset in
    let offset := Z.min offset filesize in
    let prev_index := f_cindex st in
    let cindex := offset / bytes_per_cluster in
    let coffpos := offset mod bytes_per_cluster in
    let '(cindex, coffpos) := if (offset =? filesize) && (0 <? offset) && (coffpos =? 0) then (cindex - 1, bytes_per_cluster) else (cindex, coffpos) in
    let '(cpos, prev_index) := if cindex <? prev_index then (first_cluster, 0) else (f_cpos st, prev_index) in
    if prev_index <? cindex then
      match pull (Z.to_nat (cindex - prev_index + 1)) (Some cpos) cpos with
      | Err e => Err e
      | Ok cpos => Ok (offset, mkFS offset cpos cindex coffpos)
      end
    else Ok (offset, mkFS offset cpos cindex coffpos).

  (** the loop of FatIO.read over the chain, FatIO.py 144-157: the chunks and the number of bytes that were asked for *)
  Fixpoint read_chain (fuel : nat) (from : option Z) (size cluster_offset read_bytes : Z) (chunks : list A) : res (list A * Z) :=
    match fuel with
    | O => Err OutOfFuel
    | S fuel =>
      match from with
      | None => Ok (chunks, read_bytes)
      | Some i =>
        match chain_step t table i with
        | Err e => Err e
        | Ok None => Ok (chunks, read_bytes)
        | Ok (Some (c, next)) =>
          let chunk_size := bytes_per_cluster - cluster_offset in
          let chunk_size := if size <? read_bytes + chunk_size then size - read_bytes else chunk_size in
          let chunk := py_slice (py_slice (read_cluster c) cluster_offset (len (read_cluster c))) 0 chunk_size in
          let read_bytes := read_bytes + chunk_size in
          if read_bytes =? size then Ok (chunks ++ chunk, read_bytes)
          else read_chain fuel next size 0 read_bytes (chunks ++ chunk)
        end
      end
    end.

  (** FatIO.read, FatIO.py 133-169 *)
  Definition fat_read (st : fat_state) (size : Z) : res (list A * fat_state) :=
    let size := if (filesize <? size + f_bpos st) || (size <? 0) then filesize - f_bpos st else size in
    if size =? 0 then Ok ([], st)
    else match read_chain (S (Z.to_nat size)) (Some (f_cpos st)) size (f_coffpos st) 0 [] with
         | Err e => Err e
         | Ok (chunks, read_bytes) =>
           match fat_seek st read_bytes 1 with
           | Err e => Err e
           | Ok (_, st) => if len chunks =? size then Ok (chunks, st) else Err RuntimeError
           end
         end.
  (** io.IOBase.tell: seek(0, 1) *)
  Definition fat_tell (st : fat_state) : res (Z * fat_state) := fat_seek st 0 1.
End File.

(** ** The boot sector *)

(** The fields of BootSectorHeader, FAT12BootSectorHeader and FAT32BootSectorHeader that are used, BootSectorHeader.py 13-66: the layouts
    "<3s8sHBHBHHBHHHLL", + "BBBL11s8s" (62 bytes) and + "LHHLHH12sBBBL11s8s" (90 bytes) *)
Record header := mkHeader { h_jmp : list Z; h_bytes_per_sec : Z; h_sec_per_clus : Z; h_rsvd : Z; h_num_fats : Z; h_root_ent : Z; h_tot16 : Z;
  h_media : Z; h_fatsz16 : Z; h_tot32 : Z; h_fatsz32 : Z; h_root_clus : Z }.
Definition field (data : list Z) (offset size : Z) : Z := le (zslice data offset size).
Definition parse_bpb (data : list Z) (fat32 : bool) : header :=
  mkHeader (zslice data 0 3) (field data 11 2) (field data 13 1) (field data 14 2) (field data 16 1) (field data 17 2) (field data 19 2) (field data 21 1)
    (field data 22 2) (field data 32 4) (if fat32 then field data 36 4 else 0) (if fat32 then field data 44 4 else 0).

(** PyFat.__verify_bpb_header, PyFat.py 685-735; the warning about large clusters is left out.  PyFATException is OSErr 0. *)
Definition verify_bpb (h : header) : res unit :=
  let jmp_ok := match h_jmp h with
                | [a; _; c] => if a =? 235 then c =? 144 else a =? 233
                | _ => false
                end in
  if negb jmp_ok then Err (OSErr 0)
  else if negb (existsb (Z.eqb (h_bytes_per_sec h)) [512; 1024; 2048; 4096]) then Err (OSErr 0)
  else if negb (existsb (Z.eqb (h_sec_per_clus h)) [1; 2; 4; 8; 16; 32; 64; 128]) then Err (OSErr 0)
  else if h_rsvd h =? 0 then Err (OSErr 0)
  else if negb (existsb (Z.eqb (h_media h)) [240; 248; 249; 250; 251; 252; 253; 254; 255]) then Err (OSErr 0)
  else if h_num_fats h <? 1 then Err (OSErr 0)
  else if negb (h_root_ent h =? 0) && negb (h_root_ent h * 32 mod h_bytes_per_sec h =? 0) then Err (OSErr 0)
  else if (h_tot16 h =? 0) && (h_tot32 h =? 0) then Err (OSErr 0)
  else Ok tt.

(** PyFat._get_total_sectors and _get_fat_size_count, PyFat.py 220-237 *)
Definition total_sectors (h : header) : Z := if h_tot16 h =? 0 then h_tot32 h else h_tot16 h.
Definition fat_size_count (h : header) : Z := if h_fatsz16 h =? 0 then h_fatsz32 h else h_fatsz16 h.

(** PyFat.__determine_fat_type, PyFat.py 596-636.  [root_dir_sectors] is the attribute at that time. *)
Definition determine_fat_type (h : header) (root_dir_sectors : Z) : fat_type :=
  let data_sec := total_sectors h - (h_rsvd h + h_num_fats h * fat_size_count h + root_dir_sectors) in
  let count_of_clusters := data_sec / h_sec_per_clus h in
  let msft := if count_of_clusters <? 4085 then FAT12 else if count_of_clusters <? 65525 then FAT16 else FAT32 in
  if h_fatsz16 h =? 0 then (if negb (h_fatsz32 h =? 0) then FAT32 else msft)
  else if 4085 <=? count_of_clusters then FAT16 else FAT12.

(** what is left in the attributes *)
Record volume := mkVolume { v_header : header; v_type : fat_type; v_fat_size : Z; v_root_dir_sectors : Z; v_root_dir_sector : Z; v_first_data_sector : Z }.

(** PyFat.parse_header, PyFat.py 645-683.  self.root_dir_sectors is still 0 (PyFat.py 103) when the type is determined. *)
Definition parse_header (image : list Z) : res volume :=
  let boot_sector := zslice image 0 512 in
  if len (zslice boot_sector 0 36) <? 36 then Err ValueError
  else match verify_bpb (parse_bpb (zslice boot_sector 0 36) false) with
       | Err e => Err e
       | Ok _ =>
         let fat32 := negb (0 <? h_fatsz16 (parse_bpb boot_sector false)) in
         if len boot_sector <? (if fat32 then 90 else 62) then Err ValueError
         else
           let h := parse_bpb boot_sector fat32 in
           let fat_size := fat_size_count h in
           let t := determine_fat_type h 0 in
           let root_dir_sectors := (h_root_ent h * 32 + (h_bytes_per_sec h - 1)) / h_bytes_per_sec h in
           let root_dir_sector := h_rsvd h + fat_size * h_num_fats h in
           let first_data_sector := h_rsvd h + h_num_fats h * fat_size + root_dir_sectors in
           let signature := zslice image 510 2 in
           if negb (len signature =? 2) then Err StructError
           else if negb (le signature =? 43605) then Err (OSErr 0)
           else Ok (mkVolume h t fat_size root_dir_sectors root_dir_sector first_data_sector)
       end.

(** is_fat_image, /repo/core/ratarmountcore/mountsource/formats/fat.py 22-43; the position is put back by the caller as well and is left out *)
Definition is_fat_image (image : list Z) : res bool :=
  match parse_header image with
  | Ok _ => Ok true
  | Err (OSErr _) | Err ValueError => Ok false
  | Err e => Err e
  end.

(** the bytes of the first FAT, PyFat.py 242-271; the other FATs only lead to a warning *)
Definition first_fat (image : list Z) (v : volume) : res (list Z) :=
  let size := h_bytes_per_sec (v_header v) * v_fat_size v in
  let fat := zslice image (h_rsvd (v_header v) * h_bytes_per_sec (v_header v)) size in
  if len fat =? size then Ok fat else Err (OSErr 0).
(** self.bytes_per_cluster, PyFat.py 263-264 *)
Definition bytes_per_cluster_of (v : volume) : Z := h_bytes_per_sec (v_header v) * h_sec_per_clus (v_header v).
(** PyFat.get_data_cluster_address, PyFat.py 534-543; read_cluster_contents, PyFat.py 128-139 *)
Definition cluster_address (v : volume) (cluster : Z) : Z := ((cluster - 2) * h_sec_per_clus (v_header v) + v_first_data_sector v) * h_bytes_per_sec (v_header v).
Definition read_cluster_contents (image : list Z) (v : volume) (cluster : Z) : list Z := zslice image (cluster_address v cluster) (bytes_per_cluster_of v).
