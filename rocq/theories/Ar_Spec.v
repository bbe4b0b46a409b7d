(** Specification of the AR format: a writer for archives, and what the parser shall report for them. *)
From Coq Require Import Ascii String.
From Verif Require Import PyBase PyStr PyInt FileInfo Ar_Model.
Local Open Scope Z_scope.

(** The digits [ds] denote [n] in base [b]. *)
Inductive denotes (b : Z) : str -> Z -> Prop :=
| denotes_nil : denotes b [] 0
| denotes_snoc ds n d : denotes b ds n -> 0 <= d < b -> denotes b (ds ++ [ascii_of_nat (Z.to_nat (48 + d))]) (n * b + d).

(** A field is filled up with spaces. *)
Definition pad (width : nat) (s : str) : str := s ++ repeat " "%char (width - length s).

(** A number as written: digits (possibly none, for the default) and the number they stand for. *)
Definition number (b default : Z) (width : nat) (ds : str) (n : Z) : Prop :=
  (length ds <= width)%nat /\ ((ds = [] /\ n = default) \/ (ds <> [] /\ denotes b ds n)).

Definition head (name mtime uid gid mode size : str) : str :=
  pad 16 name ++ pad 12 mtime ++ pad 6 uid ++ pad 6 gid ++ pad 8 mode ++ pad 10 size ++ ["`"%char; "010"%char].

(** Meta data: the digits and their values. *)
Record meta := mkMeta {
  d_mtime : str; d_uid : str; d_gid : str; d_mode : str; d_size : str;
  v_mtime : Z; v_uid : Z; v_gid : Z; v_mode : Z; v_size : Z }.
Definition meta_ok (m : meta) : Prop :=
  number 10 0 12 (d_mtime m) (v_mtime m) /\ number 10 0 6 (d_uid m) (v_uid m) /\ number 10 0 6 (d_gid m) (v_gid m) /\
  number 8 432 8 (d_mode m) (v_mode m) /\ number 10 0 10 (d_size m) (v_size m).
Definition head_of (name : str) (m : meta) : str := head name (d_mtime m) (d_uid m) (d_gid m) (d_mode m) (d_size m).

(** How the name of a member is written: in the header, with [nuls] zero bytes; behind the header with [nuls] zero bytes (BSD); or in the table of long
    names (GNU), as the position of its first byte in the table; [before] are the names in front of it. *)
Inductive style := Short (nuls : nat) | Bsd (nuls : nat) | Gnu (before : list str).
Record member := mkMember { m_name : str; m_style : style; m_meta : meta; m_content : str; m_fill : str }.

(** Parts of an archive: a symbol table, the table of long names, members.  [fill] is the byte that makes the size even. *)
Inductive part :=
| Symbols (m : meta) (content fill : str)
| Table (m : meta) (table_names : list str) (filler : str) (fill : str)
| Member (m : member).

Definition table_of (ns : list str) (filler : str) : str := concat (map (fun n => n ++ ["/"%char; "010"%char]) ns) ++ filler.

Definition write_part (p : part) : str :=
  match p with
  | Symbols m c fill => head_of $"/" m ++ c ++ fill
  | Table m ns filler fill => head_of $"//" m ++ table_of ns filler ++ fill
  | Member m =>
      match m_style m with
      | Short nuls => head_of (m_name m ++ repeat "000"%char nuls) (m_meta m) ++ m_content m ++ m_fill m
      | Bsd nuls => head_of ($"#1/" ++ py_str (len (m_name m) + Z.of_nat nuls)) (m_meta m) ++ m_name m ++ repeat "000"%char nuls ++ m_content m ++ m_fill m
      | Gnu before => head_of ("/"%char :: py_str (len (table_of before []))) (m_meta m) ++ m_content m ++ m_fill m
      end
  end.

(** The size of a part in its header, and the byte behind odd sizes. *)
Definition sized (m : meta) (body fill : str) : Prop := v_size m = len body /\ len fill = len body mod 2.

(** Names: no zero byte at either end, none that start with a slash. *)
Definition plain (n : str) : Prop := (forall r, n <> "000"%char :: r) /\ (forall r, n <> r ++ ["000"%char]) /\ (forall r, n <> "/"%char :: r).

Definition member_ok (table : option (list str)) (m : member) : Prop :=
  meta_ok (m_meta m) /\ plain (m_name m) /\
  match m_style m with
  | Short nuls => (length (m_name m) + nuls <= 16)%nat /\ (forall r, m_name m <> r ++ [" "%char]) /\ ~ (exists r, m_name m = $"#1/" ++ r) /\
             sized (m_meta m) (m_content m) (m_fill m)
  | Bsd nuls => (length (py_str (len (m_name m) + Z.of_nat nuls)) <= 13)%nat /\
                sized (m_meta m) (m_name m ++ repeat "000"%char nuls ++ m_content m) (m_fill m)
  | Gnu before => (length (py_str (len (table_of before []))) <= 15)%nat /\ sized (m_meta m) (m_content m) (m_fill m) /\
                  exists after, table = Some (before ++ m_name m :: after)
  end.

(** Well-formed archives: at most one table of long names, and one if members need it. *)
Fixpoint parts_ok (table : option (list str)) (ps : list part) : Prop :=
  match ps with
  | [] => True
  | Symbols m c fill :: r => meta_ok m /\ sized m c fill /\ parts_ok table r
  | Table m ns filler fill :: r =>
      meta_ok m /\ table = Some ns /\ sized m (table_of ns filler) fill /\ (filler = [] \/ filler = ["010"%char] /\ len (table_of ns filler) mod 2 = 0) /\
      Forall (fun n => ~ In "010"%char n) ns /\ parts_ok table r
  | Member m :: r => member_ok table m /\ parts_ok table r
  end.
Definition has_table (ps : list part) : Prop := exists m ns filler fill, In (Table m ns filler fill) ps.
Definition archive_ok (ps : list part) : Prop := exists table, parts_ok table ps /\ (table = None \/ has_table ps).

Definition members (ps : list part) : list member := flat_map (fun p => match p with Member m => [m] | _ => [] end) ps.
Definition magic : str := $"!<arch>" ++ ["010"%char].
Definition archive (ps : list part) : str := magic ++ concat (map write_part ps).

(** The parser's description of a member is right: name, meta data, and the place of its content. *)
Definition describes_as (name : str) (data : str) (m : member) (f : ainfo) : Prop :=
  a_name f = name /\ a_mtime f = v_mtime (m_meta m) /\ a_uid f = v_uid (m_meta m) /\ a_gid f = v_gid (m_meta m) /\
  a_mode f = Z.lor (v_mode (m_meta m)) 32768 /\ a_size f = len (m_content m) /\ a_linkname f = [] /\ a_symlink f = false /\
  0 <= a_offset_data f /\ zslice data (a_offset_data f) (a_size f) = m_content m.
Definition describes (data : str) (m : member) (f : ainfo) : Prop := describes_as (m_name m) data m f.

(** GNU long names that are the first ones of their table. *)
Definition first_names (ps : list part) : Prop :=
  Forall (fun p => match p with Member m => match m_style m with Gnu before => before = [] | _ => True end | _ => True end) ps.



(** ** Thin archives: members have no content in the archive. *)
Inductive thin_part :=
| TSymbols (m : meta) (content fill : str)
| TTable (m : meta) (table_names : list str) (filler : str)
| TMember (m : meta) (before : list str) (name : str).

Definition write_thin (p : thin_part) : str :=
  match p with
  | TSymbols m c fill => head_of $"/" m ++ c ++ fill
  | TTable m ns filler => head_of $"//" m ++ table_of ns filler
  | TMember m before _ => head_of ("/"%char :: py_str (len (table_of before []))) m
  end.

Fixpoint thin_ok (table : option (list str)) (ps : list thin_part) : Prop :=
  match ps with
  | [] => True
  | TSymbols m c fill :: r => meta_ok m /\ sized m c fill /\ thin_ok table r
  | TTable m ns filler :: r =>
      meta_ok m /\ table = None /\ v_size m = len (table_of ns filler) /\ ns <> [] /\ (filler = [] \/ filler = ["010"%char]) /\
      Forall (fun n => ~ In "010"%char n) ns /\ thin_ok (Some ns) r
  | TMember m before name :: r =>
      meta_ok m /\ (length (py_str (len (table_of before []))) <= 15)%nat /\ (exists after, table = Some (before ++ name :: after)) /\ thin_ok table r
  end.

Definition thin_magic : str := $"!<thin>" ++ ["010"%char].
Definition thin_archive (ps : list thin_part) : str := thin_magic ++ concat (map write_thin ps).
Definition thin_members (ps : list thin_part) : list (meta * str) :=
  flat_map (fun p => match p with TMember m _ name => [(m, name)] | _ => [] end) ps.
Definition thin_describes (p : meta * str) (f : ainfo) : Prop :=
  let '(m, name) := p in
  a_linkname f = name /\ a_symlink f = true /\ a_mtime f = v_mtime m /\ a_uid f = v_uid m /\ a_gid f = v_gid m /\ a_size f = v_size m /\
  a_mode f = Z.lor (Z.lor (v_mode m) 32768) 40960.

(** ** Any input: headers and contents follow each other without overlap. *)
Fixpoint regions (from : Z) (files : list ainfo) : Prop :=
  match files with
  | [] => True
  | f :: r => from <= a_offset f /\ a_offset f + 60 <= a_offset_data f /\ regions (a_offset_data f + a_size f) r
  end.

(** What the header of a file in the archive says about it. *)
Definition header_says (thin : bool) (data : str) (f : ainfo) : Prop :=
  let h := zslice data (a_offset f) 60 in
  len h = 60 /\ zslice h 58 2 = ["`"%char; "010"%char] /\
  (exists ds, zslice h 16 12 = pad 12 ds /\ number 10 0 12 ds (a_mtime f)) /\
  (exists ds, zslice h 28 6 = pad 6 ds /\ number 10 0 6 ds (a_uid f)) /\
  (exists ds, zslice h 34 6 = pad 6 ds /\ number 10 0 6 ds (a_gid f)) /\
  (exists ds mode, zslice h 40 8 = pad 8 ds /\ number 8 432 8 ds mode /\
                   a_mode f = if thin then Z.lor (Z.lor mode 32768) 40960 else Z.lor mode 32768) /\
  (exists ds size, zslice h 48 10 = pad 10 ds /\ number 10 0 10 ds size /\ a_offset_data f + a_size f = a_offset f + 60 + size).
