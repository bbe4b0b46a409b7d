(** C109-C111: files that are embedded in HTML documents as data URLs. *)
From Coq Require Import Ascii String.
From Verif Require Import PyBase PyStr PyDict Html_Model Html_Spec Html_Proofs.
Local Open Scope Z_scope.

(** ** C109: values of attributes *)

(** In every tag with quoted values, the place that is found for an attribute is that of its first value. *)
Theorem C109_found (name : list Z) (before : list attribute) (a : attribute) (after : list attribute) (tail v : list Z) :
  name_ok name -> Forall attribute_ok (before ++ a :: after) -> tail_ok tail ->
  (forall b, In b before -> a_name b <> a_name a) -> value_of a = Some v ->
  exists b e, find_span (write_tag name (before ++ a :: after) tail) (a_name a) = Ok (b, e) /\
    between (write_tag name (before ++ a :: after) tail) b e = v /\
    exists x y, write_tag name (before ++ a :: after) tail = x ++ v ++ y /\ b = Z.of_nat (List.length x) /\ e = b + Z.of_nat (List.length v) /\
      x = 60 :: name ++ concat (map write_attribute before) ++ up_to_value a.
Proof.
  intros N F T Nb V. unfold value_of in V. destruct (a_value a) as [[[[s1 s2] qo] v']|] eqn:Va; [|discriminate]. injection V as ->.
  pose proof F as F'. apply Forall_app in F' as [Fb Fa]. apply Forall_cons_iff in Fa as [A Fa]. pose proof A as (_ & _ & _ & K). rewrite Va in K. destruct K as (_ & _ & q & -> & Q & Nq).
  rewrite (find_span_unfold _ _ _ _ N F T).
  destruct (find_loop_found tail (a_name a) before a after v s1 s2 q F T Nb eq_refl Va (S (List.length (write_tag name (before ++ a :: after) tail))) (60 :: name)) as (b & E & Eb).
  { unfold write_tag. cbn [List.length]. rewrite !app_length. pose proof (attributes_length _ F) as Q0. rewrite app_length in Q0. cbn [List.length] in Q0. lia. }
  set (x := (60 :: name) ++ concat (map write_attribute before) ++ a_space a ++ a_name a ++ s1 ++ [61] ++ s2 ++ [q]).
  set (y := [q] ++ concat (map write_attribute after) ++ tail).
  assert (write_tag name (before ++ a :: after) tail = x ++ v ++ y) as Ew.
  { unfold write_tag, x, y. rewrite map_app, concat_app. cbn [map concat]. unfold write_attribute at 2. rewrite Va. repeat (rewrite <- ?app_assoc; cbn [app]). reflexivity. }
  assert (b = len x) as Lx by (unfold x; rewrite !len_app; change (len [61]) with 1; change (len [q]) with 1; lia).
  exists b, (b + len v). rewrite E. split; [reflexivity|]. split; [rewrite Ew, Lx; apply between_app|]. exists x, y. repeat split; auto. unfold x, up_to_value. rewrite Va. reflexivity.
Qed.

(** Nothing is found where the attribute is not. *)
Theorem C109_absent (name : list Z) (attrs : list attribute) (tail attribute : list Z) :
  name_ok name -> Forall attribute_ok attrs -> tail_ok tail -> (forall a, In a attrs -> a_name a <> attribute) ->
  find_span (write_tag name attrs tail) attribute = Ok (0, 0).
Proof.
  intros N F T Na. rewrite (find_span_unfold _ _ _ _ N F T). apply find_loop_ok; auto.
  unfold write_tag. cbn [List.length]. rewrite !app_length. pose proof (attributes_length _ F). lia.
Qed.

(** For tags with lower case attribute names, one each: exactly the data URLs with content are taken for embedded files, each once; the
    original URL is the value of the attribute that the page saver left for it, and the place of the data URL is found. *)
Theorem C109_tag (name : list Z) (attrs : list attribute) (tail : list Z) :
  name_ok name -> Forall attribute_ok attrs -> tail_ok tail -> NoDup (map a_name attrs) -> (forall a c, In a attrs -> In c (a_name a) -> ~ upper_letter c) ->
  NoDup (map fst (tag_candidates (map reported attrs))) /\
  (forall n, In n (map fst (tag_candidates (map reported attrs))) <-> exists a v, In a attrs /\ a_name a = n /\ value_of a = Some v /\ embeds v) /\
  (forall n u, In (n, u) (tag_candidates (map reported attrs)) ->
     ((exists a, In a attrs /\ a_name a = letters "data-savepage-" ++ n /\ value_of a = Some u) \/
      (u = [] /\ forall a v, In a attrs -> a_name a = letters "data-savepage-" ++ n -> value_of a <> Some v)) /\
     exists a v b e, In a attrs /\ a_name a = n /\ value_of a = Some v /\ find_span (write_tag name attrs tail) n = Ok (b, e) /\ b < e /\
       between (write_tag name attrs tail) b e = v).
Proof.
  intros N F T Nd Up.
  assert (forall a, In a attrs -> lower (a_name a) = a_name a) as L.
  { intros a I. unfold lower. rewrite <- (map_id (a_name a)) at 2. apply map_ext_in. intros c Ic. specialize (Up a c I Ic). unfold upper_letter in Up. destruct ((65 <=? c) && (c <=? 90)) eqn:E; [lia|reflexivity]. }
  destruct (tag_candidates_spec attrs Nd L) as (K1 & K2 & K3). split; [exact K1|]. split; [exact K2|]. intros n u I. split; [now apply K3|].
  assert (In n (map fst (tag_candidates (map reported attrs)))) as I' by (apply (in_map fst) in I; exact I).
  apply K2 in I' as (a & v & Ia & En & Va & M). subst n. apply in_split in Ia as (before & after & ->).
  destruct (C109_found name before a after tail v N F T) as (b & e & E1 & E2 & x & y & _ & Eb & Ee & _); [|exact Va|].
  { intros b Ib E. rewrite map_app in Nd. cbn [map] in Nd. apply NoDup_remove_2 in Nd. apply Nd. rewrite in_app_iff. left. rewrite <- E. now apply in_map. }
  exists a, v, b, e. split; [rewrite in_app_iff; right; now left|]. repeat split; auto. destruct M as (p & q & r & -> & _). rewrite Ee. rewrite !app_length. cbn [List.length]. lia.
Qed.

(** Not so, wanted: the same for tags whose attributes have names in capital letters.  HTMLParser reports names in lower case; they are
    then looked for as they are. *)
Theorem C109_capitals_refuted : ~ forall name attrs tail n u, name_ok name -> Forall attribute_ok attrs -> tail_ok tail -> NoDup (map a_name attrs) ->
  In (n, u) (tag_candidates (map reported attrs)) -> exists b e, find_span (write_tag name attrs tail) n = Ok (b, e) /\ b < e.
Proof.
  intros H. set (a := mkAttribute [32] (letters "SRC") (Some ([], [], Some 34, letters "data:,x"))).
  destruct (H (letters "IMG") [a] [62] (letters "src") []) as (b & e & E & L).
  - exists 73, (letters "MG"). split; [reflexivity|]. split; [right; unfold upper_letter; lia|]. change (letters "MG") with [77; 71]. repeat (apply Forall_cons; [unfold name_char, lower_letter, upper_letter; lia|]). constructor.
  - constructor; [|constructor]. repeat split.
    + discriminate.
    + constructor; [left; reflexivity|constructor].
    + exists 83, (letters "RC"). split; [reflexivity|]. split; [right; unfold upper_letter; lia|]. change (letters "RC") with [82; 67]. repeat (apply Forall_cons; [unfold name_char, lower_letter, upper_letter; lia|]). constructor.
    + constructor.
    + constructor.
    + exists 34. repeat split; auto. cbn. lia.
  - exists [], 62, []. repeat split; auto.
  - repeat constructor. intros [].
  - left. reflexivity.
  - vm_compute in E. injection E as <- <-. lia.
Qed.

(** Not so, wanted: the same for attributes like xlink:href of images in SVG, whose names have other characters. *)
Theorem C109_colon_refuted : exists n u,
  let tag := write_tag (letters "image") [mkAttribute [32] (letters "xlink:href") (Some ([], [], Some 34, letters "data:,x"))] [62] in
  In (n, u) (tag_candidates (map reported [mkAttribute [32] (letters "xlink:href") (Some ([], [], Some 34, letters "data:,x"))])) /\
  find_span tag n = Ok (0, 0).
Proof. exists (letters "xlink:href"), []. split; [left; reflexivity|reflexivity]. Qed.

(** Not so, wanted: the same for values without quotes.  Only a run of letters, digits, periods and hyphens is taken. *)
Theorem C109_unquoted_refuted : exists n u b e,
  let tag := write_tag (letters "img") [mkAttribute [32] (letters "src") (Some ([], [], None, letters "data:,x"))] [62] in
  In (n, u) (tag_candidates (map reported [mkAttribute [32] (letters "src") (Some ([], [], None, letters "data:,x"))])) /\
  find_span tag n = Ok (b, e) /\ between tag b e = letters "data".
Proof. exists (letters "src"), [], 9, 13. split; [left; reflexivity|split; reflexivity]. Qed.

(** ** C110: positions *)

(** However the document is cut into pieces for reading: line and column of any place are turned back into its offset. *)
Theorem C110_offset (chunks : list (list Z)) (s t : list Z) : concat chunks = s ++ t ->
  let '(line, column) := position s 1 0 in to_char_offset (0 :: line_offsets chunks 0) line column = Ok (Z.of_nat (List.length s)).
Proof.
  intros E. pose proof (position_offset s 0 1 0 (newlines t (0 + len s))) as K. destruct (position s 1 0) as [line column]. cbn [fst snd] in K.
  unfold to_char_offset. rewrite line_offsets_concat, E, newlines_app. rewrite Z.sub_0_r in K. rewrite K. f_equal. unfold len. lia.
Qed.

(** Sorted offsets of characters are turned into offsets of bytes; no assertion fails. *)
Theorem C110_bytes (d : document) (offsets : list Z) :
  (forall i j, (i <= j)%nat -> (j < List.length offsets)%nat -> nth i offsets 0 <= nth j offsets 0) ->
  (forall o, In o offsets -> 0 <= o <= Z.of_nat (List.length d)) ->
  exists l, convert_offsets d 0 0 offsets = Ok l /\ map fst l = offsets /\
    forall o b, In (o, b) l -> b = fold_right Z.add 0 (map snd (firstn (Z.to_nat o) d)).
Proof.
  intros S B. destruct (convert_ok offsets [] d S) as (l & E & M & K).
  - intros o I. change (len []) with 0. cbn [app]. unfold len. auto.
  - exists l. split; [exact E|]. split; [exact M|]. intros o b I. rewrite (K o b I). cbn [app]. unfold width, ztake. generalize (firstn (Z.to_nat o) d). intros m.
    induction m as [|x m IH]; cbn [fold_right map]; [reflexivity|]. now rewrite IH.
Qed.

(** A data URL in the text of the document, in a style sheet say, that consists of characters of one byte, is read as it is. *)
Theorem C110_text (pre url post : document) : Forall (fun x => 1 <= snd x) pre -> Forall (fun x => snd x = 1) url ->
  embedded_span (pre ++ url ++ post) [] (width pre) (width (pre ++ url)) = Ok (Some (width pre, width (pre ++ url))) /\
  read_at (pre ++ url ++ post) (width pre) (width (pre ++ url) - width pre) = Ok (map fst url).
Proof.
  intros F U. split; [reflexivity|]. rewrite width_app. replace (width pre + width url - width pre) with (len url) by (rewrite (width_one _ U); lia). now apply read_ok.
Qed.

(** The same for a data URL that is the value of an attribute, in a document with any characters elsewhere. *)
Theorem C110_attribute (pre tag post : document) (name : list Z) (before : list attribute) (a : attribute) (after : list attribute) (tail v : list Z) :
  Forall (fun x => 1 <= snd x) pre -> Forall (fun x => 1 <= snd x) tag ->
  characters tag = write_tag name (before ++ a :: after) tail ->
  name_ok name -> Forall attribute_ok (before ++ a :: after) -> tail_ok tail ->
  (forall b, In b before -> a_name b <> a_name a) -> value_of a = Some v -> v <> [] ->
  exists x url y, tag = x ++ url ++ y /\ map fst url = v /\ map fst x = 60 :: name ++ concat (map write_attribute before) ++ up_to_value a /\
    embedded_span (pre ++ tag ++ post) (a_name a) (width pre) (width (pre ++ tag)) = Ok (Some (width (pre ++ x), width (pre ++ x ++ url))) /\
    (Forall (fun x => snd x = 1) url ->
       read_at (pre ++ tag ++ post) (width (pre ++ x)) (width (pre ++ x ++ url) - width (pre ++ x)) = Ok v).
Proof.
  intros Fp Ft Ec N F T Nb V Ne. set (extra := characters (ztake (width tag - len tag) post)).
  assert (tail_ok (tail ++ extra)) as T' by now apply tail_ok_app.
  destruct (C109_found name before a after (tail ++ extra) v N F T' Nb V) as (b & e & E1 & _ & cx & cy & Ew & Eb & Ee & _).
  destruct (C109_found name before a after tail v N F T Nb V) as (b0 & e0 & E1' & _ & cx0 & cy0 & Ew0 & Eb0 & Ee0 & Ecx0).
  assert (write_tag name (before ++ a :: after) (tail ++ extra) = characters tag ++ extra) as Eapp by (rewrite Ec; unfold write_tag; cbn [app]; rewrite <- !app_assoc; reflexivity).
  assert (b0 = b) as ->.
  { assert (exists s1 s2 qo v', a_value a = Some (s1, s2, qo, v')) as (s1 & s2 & qo & v' & Va) by (unfold value_of in V; destruct (a_value a) as [[[[? ?] ?] ?]|]; [eauto|discriminate]).
    pose proof F as F'. apply Forall_app in F' as [_ Fa]. apply Forall_cons_iff in Fa as [A _]. destruct A as (_ & _ & _ & K). rewrite Va in K. destruct K as (_ & _ & q & -> & _).
    rewrite (find_span_unfold _ _ _ _ N F T) in E1'. rewrite (find_span_unfold _ _ _ _ N F T') in E1.
    assert (forall t, (List.length before < S (List.length (write_tag name (before ++ a :: after) t)))%nat) as Fu.
    { intros t. unfold write_tag. cbn [List.length]. rewrite !app_length. pose proof (attributes_length _ F) as Q0. rewrite app_length in Q0. cbn [List.length] in Q0. lia. }
    destruct (find_loop_found tail (a_name a) before a after v' s1 s2 q F T Nb eq_refl Va _ (60 :: name) (Fu tail)) as (c1 & C1 & D1).
    destruct (find_loop_found (tail ++ extra) (a_name a) before a after v' s1 s2 q F T' Nb eq_refl Va _ (60 :: name) (Fu (tail ++ extra))) as (c2 & C2 & D2).
    rewrite C1 in E1'. rewrite C2 in E1. injection E1' as <- _. injection E1 as <- _. lia. }
  set (x := ztake b tag). set (url := ztake (len v) (zskip b tag)). set (y := zskip (len v) (zskip b tag)).
  pose proof (len_nonneg cx0) as P1. pose proof (len_nonneg v) as P2. assert (b = len cx0) as Eb0' by exact Eb0.
  assert (len tag = len cx0 + len v + len cy0) as Lt. { rewrite <- characters_len, Ec, Ew0, !len_app. lia. }
  pose proof (len_nonneg cy0) as P3.
  assert (tag = x ++ url ++ y) as Et. { unfold x, url, y. rewrite (ztake_zskip (len v)) by lia. now rewrite ztake_zskip by lia. }
  assert (len x = b) as Lx by (unfold x; rewrite len_ztake by lia; lia).
  assert (len url = len v) as Lu by (unfold url; rewrite len_ztake, len_zskip by lia; lia).
  assert (characters url = v) as Ev.
  { unfold url. unfold characters, ztake, zskip. rewrite <- firstn_map, <- skipn_map. change (map fst tag) with (characters tag). rewrite Ec, Ew0.
    change (firstn (Z.to_nat (len v)) (skipn (Z.to_nat b) (cx0 ++ v ++ cy0))) with (ztake (len v) (zskip b (cx0 ++ v ++ cy0))). rewrite Eb0', zskip_app_len. apply ztake_app_len. }
  exists x, url, y. split; [exact Et|]. split; [exact Ev|].
  split. { rewrite <- Ecx0. unfold x, ztake. rewrite <- firstn_map. change (map fst tag) with (characters tag). rewrite Ec, Ew0, Eb0'. apply ztake_app_len. }
  assert (Forall (fun x => 1 <= snd x) (pre ++ x)) as Fpx. { apply Forall_app. split; [exact Fp|]. rewrite Et in Ft. apply Forall_app in Ft. tauto. }
  split.
  - unfold embedded_span. destruct (a_name a) as [|n0 nm] eqn:En.
    { exfalso. pose proof F as F'. apply Forall_app in F' as [_ Fa]. apply Forall_cons_iff in Fa as [A _]. destruct A as (_ & _ & (? & ? & A & _) & _). rewrite En in A. discriminate. }
    rewrite <- En in *. rewrite width_app. replace (width pre + width tag - width pre) with (width tag) by lia. unfold read_at. rewrite (seek_ok _ _ Fp).
    pose proof (width_len _ Ft) as Wl.
    assert (characters (ztake (width tag) (tag ++ post)) = write_tag name (before ++ a :: after) (tail ++ extra)) as ->.
    { rewrite Eapp. unfold extra. rewrite <- characters_app. f_equal. unfold ztake. rewrite firstn_app. f_equal; [apply firstn_all2; unfold len in Wl; lia|f_equal; unfold len; lia]. }
    cbn [bind]. rewrite E1. cbn [bind]. rewrite Ee. assert (0 < Z.of_nat (List.length v)) as Pv by (destruct v; [congruence|cbn; lia]).
    destruct (b + Z.of_nat (List.length v) <=? b) eqn:L; [lia|]. rewrite !width_app.
    assert (ztake b (tag ++ post) = x) as Ex. { rewrite Et, <- app_assoc, <- Lx. apply ztake_app_len. }
    assert (ztake (b + Z.of_nat (List.length v) - b) (zskip b (tag ++ post)) = url) as Eu.
    { replace (b + Z.of_nat (List.length v) - b) with (len url) by (rewrite Lu; unfold len; lia). rewrite Et, <- app_assoc, <- Lx, zskip_app_len, <- app_assoc. apply ztake_app_len. }
    rewrite Ex, Eu. rewrite Z.add_assoc. reflexivity.
  - intros U. rewrite Et, <- app_assoc, <- app_assoc. replace (pre ++ x ++ url ++ y ++ post) with ((pre ++ x) ++ url ++ y ++ post) by now rewrite <- app_assoc.
    replace (width (pre ++ x ++ url) - width (pre ++ x)) with (len url) by (rewrite !width_app, (width_one _ U); lia). rewrite (read_ok _ _ _ Fpx). now rewrite Ev.
Qed.

(** Not so, wanted: the same for every data URL.  The length of the span is a number of bytes but that many characters are read, so that
    the file goes on with what follows the data URL in the document. *)
Theorem C110_multibyte_refuted : ~ forall pre url post : document, Forall (fun x => 1 <= snd x) (pre ++ url ++ post) ->
  read_at (pre ++ url ++ post) (width pre) (width (pre ++ url) - width pre) = Ok (map fst url).
Proof. intros H. specialize (H [] [(233, 2)] [(62, 1)] ltac:(repeat constructor; cbn; lia)). vm_compute in H. discriminate H. Qed.

(** ** C111: contents of data URLs *)
Section DataUrls.
  Variable unescape : list Z -> list Z.
  Variable encoding : Type.
  Variables ascii_encoding utf8_encoding : encoding.
  Variable encode : encoding -> list Z -> res (list Z).
  Variable search : list Z -> option encoding.
  Variable strip_lower : list Z -> list Z.
  Notation data_url_file := (data_url_file unescape encoding ascii_encoding utf8_encoding encode search strip_lower).

  (** Base64: every content comes back, with its media type, whatever other parameters there are and whatever other characters (line feeds)
      the payload is broken with. *)
  Theorem C111_base64 (mime : list Z) (parameters : list (list Z)) (bytes payload : list Z) :
    media_type mime -> Forall (Forall plain_char) parameters -> Forall (fun b => 0 <= b < 256) bytes -> interspersed (b64_encode bytes) payload ->
    let url := letters "data:" ++ mime ++ write_parameters parameters ++ letters ";base64," ++ payload in
    unescape url = url -> data_url_file url = Ok (mime, bytes).
  Proof.
    cbv zeta. intros M F B I E. unfold Html_Model.data_url_file. rewrite E.
    assert (letters "data:" ++ mime ++ write_parameters parameters ++ letters ";base64," ++ payload =
      chars "data:" ++ mime ++ write_parameters (parameters ++ [letters "base64"]) ++ 44 :: payload) as ->.
    { unfold write_parameters. rewrite map_app, concat_app. cbn [map concat]. rewrite app_nil_r, <- app_assoc. reflexivity. }
    rewrite match_url_ok; [|exact M|].
    - unfold is_base64. rewrite rev_app_distr. cbn [rev app]. destruct (text_eqb_spec (letters "base64") (chars "base64")) as [_|N]; [|exfalso; apply N; reflexivity].
      rewrite (b64_interspersed _ _ I), (b64_roundtrip (List.length bytes)) by auto. reflexivity.
    - apply Forall_app. split; [exact F|]. constructor; [|constructor]. change (letters "base64") with [98; 97; 115; 101; 54; 52]. repeat (apply Forall_cons; [unfold plain_char; lia|]). constructor.
  Qed.

  (** Text without parameters: the content is the text in ASCII. *)
  Theorem C111_plain (mime data : list Z) : media_type mime -> let url := letters "data:" ++ mime ++ 44 :: data in
    unescape url = url -> data_url_file url = bind (encode ascii_encoding data) (fun bytes => Ok (mime, bytes)).
  Proof.
    cbv zeta. intros M E. unfold Html_Model.data_url_file. rewrite E. pose proof (match_url_ok mime [] data M ltac:(constructor)) as K.
    change (write_parameters []) with (@nil Z) in K. cbn [app] in K. change (letters "data:") with (chars "data:"). rewrite K. reflexivity.
  Qed.

  (** Text with a charset: the content is the text in the encoding of that name (here for names that str.strip and str.lower do not change). *)
  Theorem C111_charset (mime charset data : list Z) (e : encoding) : media_type mime -> Forall plain_char charset ->
    strip_lower (letters "charset=" ++ charset) = letters "charset=" ++ charset -> strip_lower (letters "charset") = letters "charset" ->
    strip_lower charset = charset -> search charset = Some e ->
    let url := letters "data:" ++ mime ++ letters ";charset=" ++ charset ++ 44 :: data in
    unescape url = url -> data_url_file url = bind (encode e data) (fun bytes => Ok (mime, bytes)).
  Proof.
    cbv zeta. intros M F S1 S2 S3 Se E. unfold Html_Model.data_url_file. rewrite E.
    assert (letters "data:" ++ mime ++ letters ";charset=" ++ charset ++ 44 :: data = chars "data:" ++ mime ++ write_parameters [letters "charset=" ++ charset] ++ 44 :: data) as ->.
    { unfold write_parameters. cbn [map concat]. rewrite app_nil_r. change (letters ";charset=") with (59 :: letters "charset="). cbn [app]. now rewrite <- app_assoc. }
    rewrite match_url_ok; [|exact M|].
    - unfold is_base64. cbn [rev app]. destruct (text_eqb_spec (letters "charset=" ++ charset) (chars "base64")) as [C|_]; [discriminate C|].
      unfold choose_encoding. cbn [fold_left]. rewrite S1.
      destruct (text_eqb_spec (letters "charset=" ++ charset) (chars "utf-8")) as [C|_]; [discriminate C|].
      destruct (text_eqb_spec (letters "charset=" ++ charset) (chars "utf8")) as [C|_]; [discriminate C|]. cbn [orb].
      change (letters "charset=" ++ charset) with (letters "charset" ++ 61 :: charset).
      assert (span (fun c => negb (c =? 61)) (letters "charset" ++ 61 :: charset) = (letters "charset", 61 :: charset)) as -> by reflexivity.
      rewrite S2, S3, Se. destruct (text_eqb_spec (letters "charset") (chars "charset")) as [_|N]; [reflexivity|exfalso; apply N; reflexivity].
    - constructor; [|constructor]. apply Forall_app. split; [|exact F]. change (letters "charset=") with [99; 104; 97; 114; 115; 101; 116; 61]. repeat (apply Forall_cons; [unfold plain_char; lia|]). constructor.
  Qed.

  (** A file found at the place of a data URL of one-byte characters has the content of the data URL. *)
  Theorem C111_open (pre url post : document) : Forall (fun x => 1 <= snd x) pre -> Forall (fun x => snd x = 1) url -> url <> [] ->
    open_with_span unescape encoding ascii_encoding utf8_encoding encode search strip_lower (pre ++ url ++ post) (width pre) (width (pre ++ url)) = data_url_file (map fst url).
  Proof.
    intros F U N. destruct (C110_text pre url post F U) as [_ K]. unfold open_with_span. rewrite K. destruct (width (pre ++ url) <=? width pre) eqn:L; [|reflexivity].
    rewrite width_app, (width_one _ U) in L. destruct url; [congruence|]. unfold len in L. cbn [List.length] in L. lia.
  Qed.
End DataUrls.

(** Not so, wanted: every data URL can be opened.  One without charset and with a character that is not ASCII raises an error, which
    ends the mount because all data URLs are opened to make the index. *)
Theorem C111_always_refuted : ~ forall (encode : bool -> list Z -> res (list Z)),
  (forall s, (exists c, In c s /\ 128 <= c) -> encode true s = Err UnicodeError) ->
  forall mime data, media_type mime ->
  is_ok (data_url_file (fun s => s) bool true false encode (fun _ => None) (fun s => s) (letters "data:" ++ mime ++ 44 :: data)) = true.
Proof.
  intros H. specialize (H (fun enc s => if existsb (fun c => 128 <=? c) s then Err UnicodeError else Ok s)).
  assert (media_type (letters "a/b")) as M.
  { split; [change (letters "a/b") with [97; 47; 98]; repeat (apply Forall_cons; [unfold plain_char; lia|]); constructor|]. exists (letters "a"), (letters "b"). repeat split; discriminate. }
  specialize (fun K => H K (letters "a/b") [233] M). rewrite C111_plain in H; [|exact M|reflexivity]. cbn in H. discriminate H.
  intros s (c & I & L). assert (existsb (fun c => 128 <=? c) s = true) as ->; [|reflexivity]. apply existsb_exists. exists c. split; [exact I|lia].
Qed.

(** Examples that meet the hypotheses. *)
Example C109_case :
  let poster := mkAttribute [32; 10] (letters "poster") (Some ([32], [], Some 39, letters "data:image/png;base64,AAAA")) in
  let saved := mkAttribute [32] (letters "data-savepage-src") (Some ([], [], Some 34, letters "/v.mp4")) in
  let src := mkAttribute [9] (letters "src") (Some ([], [], Some 34, letters "data:video/mp4;base64,BBBB")) in
  let tag := write_tag (letters "video") [poster; mkAttribute [32] (letters "loop") None; saved; src] [32; 47; 62] in
  tag_candidates (map reported [poster; mkAttribute [32] (letters "loop") None; saved; src]) = [(letters "poster", []); (letters "src", letters "/v.mp4")] /\
  find_span tag (letters "src") = Ok (82, 108) /\ between tag 82 108 = letters "data:video/mp4;base64,BBBB".
Proof. split; [reflexivity|split; reflexivity]. Qed.

Example C111_case :
  data_url_file (fun s => s) bool true false (fun _ s => Ok s) (fun _ => None) (fun s => s) (letters "data:text/plain;charset=utf-8;base64,SGVs" ++ [10] ++ letters "bG8=") =
    Ok (letters "text/plain", letters "Hello") /\
  data_url_file (fun s => s) bool true false (fun _ s => Ok s) (fun _ => None) (fun s => s) (letters "data:text/html,<p>") = Ok (letters "text/html", letters "<p>") /\
  data_url_file (fun s => s) bool true false (fun _ s => Ok s) (fun _ => None) (fun s => s) (letters "data:text;base64,AAAA") = Ok (letters "text/plain", []).
Proof. split; [reflexivity|split; reflexivity]. Qed.

Print Assumptions C109_found.
Print Assumptions C109_absent.
Print Assumptions C109_tag.
Print Assumptions C109_capitals_refuted.
Print Assumptions C109_colon_refuted.
Print Assumptions C109_unquoted_refuted.
Print Assumptions C110_offset.
Print Assumptions C110_bytes.
Print Assumptions C110_text.
Print Assumptions C110_attribute.
Print Assumptions C110_multibyte_refuted.
Print Assumptions C111_base64.
Print Assumptions C111_plain.
Print Assumptions C111_charset.
Print Assumptions C111_open.
Print Assumptions C111_always_refuted.
