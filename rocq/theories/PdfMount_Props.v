(** Property C126: a mounted PDF document shows its attachments. *)
From Coq Require Import Ascii String Permutation.
From Verif Require Import PyBase PyDict PyStr Path_Model Path_Spec Path_Proofs FileInfo Index_Model Index_Spec Index_Proofs Tar_Model Tar_Proofs Member_Proofs Rar_Proofs
  Pdf_Model Pdf_Spec Pdf_Proofs Pdf_Props PdfMount_Model.
Local Open Scope Z_scope.

Section C126.
  Context {A : Type}.
  Variable digits : Z -> str.
  Variable sha : list A -> str.
  Variable transform : str -> str.
  Variable mtime : Z.

  (** Where something with a name is shown: objects without a name are named after their contents. *)
  Definition shown_at (name : str) (data : option (list A)) : location :=
    Path_Spec.denotes (transform (match name, data with [], Some (x :: r) => sha (x :: r) | _, _ => name end)).
  (** What pages show: their images and their text. *)
  Definition on_page (d : @document A) (name : str) (data : list A) : Prop :=
    exists n p, nth_error (d_pages d) n = Some p /\
      ((exists img, In (img, data) (pg_images p) /\ name = $"page_" ++ digits (Z.of_nat n) ++ $"_" ++ img) \/
       (pg_text p = data /\ data <> [] /\ name = $"page_" ++ digits (Z.of_nat n) ++ $".txt")).

  Let row_of := pdf_row sha transform mtime.
  Let loc_of (f : (str * Z) * option (list A)) : location := shown_at (fst (fst f)) (snd f).
  Lemma pdf_row_fields f : full_path (row_of f) = written (loc_of f) /\ ~ In slash (r_name (row_of f)) /\ r_offsetheader (row_of f) = snd (fst f) /\
    row_to_file_info (row_of f) = mkInfo (match snd f with Some l => len l | None => 0 end) mtime 33188 [] 0 0 [mkTD 0 (snd (fst f)) false false false 0].
  Proof.
    destruct f as [[name k] data]. unfold row_of, loc_of, pdf_row, shown_at. cbn [fst snd]. cbv zeta.
    set (n := match name, data with [], Some (x :: r) => sha (x :: r) | _, _ => name end). rewrite normpath_written.
    destruct (split_last_written _ (denotes_proper (transform n))) as (a & b & -> & E & N). split; [exact E|]. split; [exact N|]. split; reflexivity.
  Qed.
  Lemma last_split {B} (x : B) l : (forall y z : B, {y = z} + {y <> z}) -> In x l -> exists a b, l = a ++ x :: b /\ ~ In x b.
  Proof.
    intros D. induction l as [|y l IH]; intros I; [destruct I|]. destruct (in_dec D x l) as [J|J].
    - destruct (IH J) as (a & b & -> & N). exists (y :: a), b. split; [reflexivity|exact N].
    - destruct I as [-> |I]; [|contradiction]. exists [], l. split; [reflexivity|exact J].
  Qed.

  (** What is in the list of files. *)
  Lemma shown_kind (d : @document A) files name k : xref_proper d -> gather digits d = Ok files -> In (name, k) files ->
    (exists r, attached d name r /\ In (r, k) (d_xref d) /\ 0 < k /\ open_with_offset d k = Ok (d_stream d r)) \/ (k <= 0 /\ exists data, on_page d name data /\ open_with_offset d k = Ok (Some data)).
  Proof.
    intros Hx Hg Hi. unfold gather in Hg. destruct (page_loop digits (len (d_pages d)) 0 (d_pages d) None) as [objects offset] eqn:E.
    assert (P : forall x f, In (x, f) objects -> exists n p, nth_error (d_pages d) n = Some p /\ in_page digits p (len (d_pages d)) (Z.of_nat n) x f).
    { intros x f H. destruct (page_loop_In digits (len (d_pages d)) (d_pages d) 0 None x f) as (n & p & H1 & H2); [now rewrite E|]. exists n, p. split; assumption. }
    assert (R : forall r, attached d name r -> xref_of d r = Some k -> exists r, attached d name r /\ In (r, k) (d_xref d) /\ 0 < k /\ open_with_offset d k = Ok (d_stream d r)).
    { intros r Ha X. exists r. split; [assumption|]. split; [now apply xref_In|]. unfold open_with_offset.
      pose proof (proj2 (proj2 Hx) name r k Ha (xref_In d r k X)) as Hp. split; [exact Hp|]. assert (E0 : (k <=? 0) = false) by (apply Z.leb_gt; assumption).
      rewrite E0, (object_at_ref d r k Hx X). reflexivity. }
    destruct (emit_sound d _ _ _ _ name k Hg Hi) as [H|(r & H & X)]; apply in_app_iff in H as [H|H].
    - apply in_map_iff in H as (a & [=] & _).
    - right. destruct (P _ _ H) as (n & p & Hn & [(r & _ & [=])|[(j & img & data & Hj & -> & [= ->])|(Ht & -> & [= ->])]]).
      + pose proof (open_image digits d n p j img data Hn Hj) as O.
        assert (0 < len (d_pages d)) by (unfold len; assert (n < List.length (d_pages d))%nat by (apply nth_error_Some; congruence); lia). split; [nia|].
        exists data. split; [|exact O]. exists n, p. split; [exact Hn|]. left. exists img. split; [now apply nth_error_In in Hj|reflexivity].
      + split; [lia|]. exists (pg_text p). split; [|now apply open_text]. exists n, p. split; [exact Hn|]. right. repeat split. exact Ht.
    - left. apply in_map_iff in H as ([nm r'] & [= <- <-] & H). apply (R r'); [left; assumption|assumption].
    - left. destruct (P _ _ H) as (n & p & Hn & [(r' & Ha & [= <-])|[(j & img & data & _ & _ & [=])|(_ & _ & [=])]]).
      apply (R r); [|assumption]. right. exists p. split; [eapply nth_error_In; eassumption|assumption].
  Qed.
  Lemma read_all_ok (d : @document A) files : (forall name k, In (name, k) files -> exists x, open_with_offset d k = Ok x) ->
    exists l, read_all d files = Ok l /\ map fst l = files /\ forall f x, In (f, x) l -> In f files /\ open_with_offset d (snd f) = Ok x.
  Proof.
    induction files as [|[name k] files IH]; intros H; cbn [read_all].
    - exists []. split; [reflexivity|]. split; [reflexivity|]. intros f x [].
    - destruct (H name k) as (x & E); [now left|]. cbn [snd]. rewrite E. destruct IH as (l & El & M & I); [intros n j J; apply (H n j); now right|]. rewrite El.
      exists ((name, k, x) :: l). split; [reflexivity|]. cbn [map fst]. rewrite M. split; [reflexivity|]. intros f y [J|J]; [injection J as <- <-; split; [now left|exact E]|].
      destruct (I f y J). split; [now right|assumption].
  Qed.
  Lemma pdf_index_ok (d : @document A) files : xref_proper d -> gather digits d = Ok files ->
    exists l, pdf_index digits sha transform mtime d = Ok (build [Batch (map row_of l)]) /\ map fst l = files /\ forall f x, In (f, x) l -> In f files /\ open_with_offset d (snd f) = Ok x.
  Proof.
    intros Hx Hg. destruct (read_all_ok d files) as (l & E & M & I).
    - intros name k J. destruct (shown_kind d files name k Hx Hg J) as [(r & _ & _ & _ & O)|(_ & data & _ & O)]; eauto.
    - exists l. split; [|split; assumption]. unfold pdf_index. rewrite Hg, E. reflexivity.
  Qed.

  (** C126: if what is in the document can be found, then it can be mounted, and an attachment is found under its name with its size, and
      opening it gives its bytes, unless another attachment is at or below that place, or a page shows something below it. *)
  Theorem C126_attachments_partial :
    forall (d : @document A) files, xref_proper d -> gather digits d = Ok files ->
    exists rows, pdf_index digits sha transform mtime d = Ok rows /\
    forall now uid gid sh name r k x data, any_order sh -> attached d name r -> In (r, k) (d_xref d) -> d_stream d r = Some (x :: data) ->
      (forall name', attached d name' r -> name' = name) ->
      let place := shown_at name (Some (x :: data)) in place <> [] ->
      (forall name' r' rest, attached d name' r' -> r' <> r -> shown_at name' (d_stream d r') <> place ++ rest) ->
      (forall name' y rest, on_page d name' y -> rest <> [] -> shown_at name' (Some y) <> place ++ rest) ->
      exists i, lookup now uid gid sh rows (written place) 0 = Some i /\ pdf_open_info d i = Ok (x :: data) /\
        fi_size i = Z.of_nat (List.length (x :: data)) /\ fi_mode i = 33188 /\ fi_mtime i = mtime /\ fi_linkname i = [].
  Proof.
    intros d files Hx Hg. destruct (pdf_index_ok d files Hx Hg) as (l & E & M & I). eexists. split; [exact E|].
    intros now uid gid sh name r k x data Hsh Ha Hk Hd Hu place Np No Npg.
    destruct (C87_attachments A digits d files name r k Hx Hg Ha Hk) as (name' & Hi).
    assert (Refs : forall r', In (r', k) (d_xref d) -> r' = r).
    { intros r' Hr'. destruct Hx as (_ & X2 & _). clear - X2 Hr' Hk. induction (d_xref d) as [|[a b] t IHt]; [destruct Hk|]. cbn [map snd] in X2. inversion X2 as [|? ? N1 N2]; subst.
      destruct Hk as [Q|Q], Hr' as [R|R]; [congruence| | |now apply IHt].
      - injection Q as -> ->. exfalso. apply N1. now apply (in_map snd) in R.
      - injection R as -> ->. exfalso. apply N1. now apply (in_map snd) in Q. }
    assert (Off : forall r' k', In (r', k') (d_xref d) -> r' = r -> k' = k).
    { intros r' k' Hr' ->. destruct Hx as (X1 & _ & _). clear - X1 Hr' Hk. induction (d_xref d) as [|[a b] t IHt]; [destruct Hk|]. cbn [map fst] in X1. inversion X1 as [|? ? N1 N2]; subst.
      destruct Hk as [Q|Q], Hr' as [R|R]; [congruence| | |now apply IHt].
      - injection Q as -> ->. exfalso. apply N1. now apply (in_map fst) in R.
      - injection R as -> ->. exfalso. apply N1. now apply (in_map fst) in Q. }
    pose proof (proj2 (proj2 Hx) name r k Ha Hk) as Kp.
    assert (name' = name) as ->.
    { destruct (shown_kind d files name' k Hx Hg Hi) as [(r' & Ha' & Hr' & _ & _)|(Q & _)]; [|lia]. rewrite (Refs r' Hr') in Ha'. now apply Hu. }
    assert (Open : open_with_offset d k = Ok (Some (x :: data))).
    { destruct (shown_kind d files name k Hx Hg Hi) as [(r' & _ & Hr' & _ & O)|(Q & _)]; [|lia]. rewrite (Refs r' Hr') in O. now rewrite O, Hd. }
    assert (Kind : forall f y, In (f, y) l -> (f = (name, k) /\ y = Some (x :: data)) \/ (exists r', attached d (fst f) r' /\ r' <> r /\ In (r', snd f) (d_xref d) /\ y = d_stream d r') \/
                    (snd f < k /\ exists z, on_page d (fst f) z /\ y = Some z)).
    { intros [n j] y J. destruct (I _ _ J) as (J1 & J2). cbn [fst snd] in *. destruct (shown_kind d files n j Hx Hg J1) as [(r' & Ha' & Hr' & _ & O)|(Q & z & Hz & O)].
      - rewrite O in J2. injection J2 as <-. assert (D : {r' = r} + {r' <> r}) by (decide equality; apply Z.eq_dec). destruct D as [-> |D]; [|right; left; eauto].
        left. rewrite (Hu n Ha'). rewrite (Off r j Hr' eq_refl). split; [reflexivity|exact Hd].
      - rewrite O in J2. injection J2 as <-. right. right. split; [lia|eauto]. }
    assert (Dec : forall y z : str * Z, {y = z} + {y <> z}) by (intros; decide equality; [apply Z.eq_dec|apply (list_eq_dec ascii_dec)]).
    assert (Hl : exists before after, l = before ++ ((name, k), Some (x :: data)) :: after /\ (forall y, ~ In ((name, k), y) after)).
    { destruct (last_split (name, k) (map fst l) Dec) as (a & b & Q & N); [now rewrite M|]. apply map_eq_app in Q as (l1 & l2 & -> & <- & Q). destruct l2 as [|[f y] l2]; [discriminate|].
      injection Q as -> <-. exists l1, l2. destruct (Kind (name, k) y) as [(_ & ->)|[(r' & Q1 & Q2 & Q3 & _)|(Q & _)]].
      - apply in_or_app. right. now left.
      - split; [reflexivity|]. intros z Iz. apply N. now apply (in_map fst) in Iz.
      - exfalso. now apply Q2, Refs.
      - cbn [snd] in Q. lia. }
    destruct Hl as (before & after & -> & Na). set (e := ((name, k), Some (x :: data))) in *. destruct (pdf_row_fields e) as (F1 & F2 & F3 & F4).
    exists (row_to_file_info (row_of e)). split.
    - apply (member_lookup row_of loc_of); auto.
      + intros g. apply pdf_row_fields.
      + intros g. apply pdf_row_fields.
      + intros g. apply denotes_proper.
      + intros [f y] Ig Lg. destruct (pdf_row_fields (f, y)) as (_ & _ & G & _). rewrite G, F3. unfold e. cbn [fst snd]. destruct (Kind f y) as [(-> & ->)|[(r' & Q1 & Q2 & Q3 & ->)|(Q & _)]]; [apply in_or_app; now left|cbn; lia| |lia].
        exfalso. apply (No (fst f) r' [] Q1 Q2). rewrite app_nil_r. exact Lg.
      + intros [f y] Ig Lg. destruct (pdf_row_fields (f, y)) as (_ & _ & G & _). rewrite G, F3. unfold e. cbn [fst snd]. destruct (Kind f y) as [(-> & ->)|[(r' & Q1 & Q2 & Q3 & ->)|(Q & _)]]; [apply in_or_app; right; now right| | |lia].
        * exfalso. exact (Na _ Ig).
        * exfalso. apply (No (fst f) r' [] Q1 Q2). rewrite app_nil_r. exact Lg.
      + right. intros [f y] rest Ig Nr Lg. destruct (Kind f y Ig) as [(-> & ->)|[(r' & Q1 & Q2 & Q3 & ->)|(_ & z & Q & ->)]].
        * unfold loc_of in Lg. cbn [fst snd] in Lg. fold place in Lg. rewrite <- (app_nil_r place) in Lg at 1. apply app_inv_head in Lg. now subst.
        * now apply (No (fst f) r' rest Q1 Q2).
        * now apply (Npg (fst f) z rest Q Nr).
    - rewrite F4. unfold pdf_open_info, e. cbn [fi_mode fi_userdata fi_size u_offsetheader fi_mtime fi_linkname fst snd]. unfold pdf_open. rewrite Open. repeat split; reflexivity.
  Qed.

  (** Nothing is found where there is neither an attachment nor something a page shows, nor a folder of one, and folders list what is found
      below them. *)
  Theorem C126_nothing_else_partial :
    forall (d : @document A) files, xref_proper d -> gather digits d = Ok files ->
    exists rows, pdf_index digits sha transform mtime d = Ok rows /\
    (forall now uid gid sh loc, any_order sh -> Forall proper_name loc -> loc <> [] ->
      (forall name r rest, attached d name r -> shown_at name (d_stream d r) <> loc ++ rest) -> (forall name y rest, on_page d name y -> shown_at name (Some y) <> loc ++ rest) ->
      lookup now uid gid sh rows (written loc) 0 = None) /\
    (forall now uid gid sh sh1 loc n, any_order sh -> any_order sh1 -> Forall proper_name loc -> proper_name n ->
      match index_list sh1 rows (written loc) with Some d => dget str_eqb d n | None => None end = lookup now uid gid sh rows (written (loc ++ [n])) 0).
  Proof.
    intros d files Hx Hg. destruct (pdf_index_ok d files Hx Hg) as (l & E & M & I). eexists. split; [exact E|]. split.
    - intros now uid gid sh loc Hsh P N H1 H2. apply (member_lookup_none row_of loc_of); auto.
      + intros e. apply pdf_row_fields.
      + intros e. apply pdf_row_fields.
      + intros e. apply denotes_proper.
      + intros [[n j] y] rest Ig Lg. destruct (I _ _ Ig) as (J1 & J2). cbn [fst snd] in *. destruct (shown_kind d files n j Hx Hg J1) as [(r' & Ha' & Hr' & _ & O)|(Q & z & Hz & O)]; rewrite O in J2; injection J2 as <-.
        * now apply (H1 n r' rest).
        * now apply (H2 n z rest).
    - intros now uid gid sh sh1 loc n Hsh Hsh1 P Pn. apply (member_list row_of loc_of); auto.
      + intros e. apply pdf_row_fields.
      + intros e. apply pdf_row_fields.
      + intros e. apply denotes_proper.
  Qed.
End C126.
Print Assumptions C126_attachments_partial.
Print Assumptions C126_nothing_else_partial.

(** A document with a named and an unnamed attachment, and a page with an image and text. *)
Definition ex_sha (l : list nat) : str := $"sha" ++ map (fun n => ascii_of_nat (48 + n)) l.
Definition ex_doc2 : @document nat :=
  mkDoc [($"d/a.txt", (0, 5)); ([], (0, 6))] [mkPage [] [($"Im1.png", [1; 2]%nat)] [7; 8]%nat] [((0, 4), 15); ((0, 5), 40); ((0, 6), 90)]
        (fun r => if snd r =? 5 then Some [3]%nat else if snd r =? 6 then Some [4; 4]%nat else None).
Example C126_case :
  let id := fun s : str => s in
  xref_proper ex_doc2 /\ gather ex_digits ex_doc2 = Ok [($"d/a.txt", 40); ([], 90)] /\ attached ex_doc2 [] (0, 6) /\ (forall name', attached ex_doc2 name' (0, 6) -> name' = []) /\
  shown_at ex_sha id [] (Some [4; 4]%nat) = [$"sha44"] /\
  (forall name' r' rest, attached ex_doc2 name' r' -> r' <> (0, 6) -> shown_at ex_sha id name' (d_stream ex_doc2 r') <> [$"sha44"] ++ rest) /\
  (forall name' y rest, on_page ex_digits ex_doc2 name' y -> rest <> [] -> shown_at ex_sha id name' (Some y) <> [$"sha44"] ++ rest) /\
  (forall name' y rest, on_page ex_digits ex_doc2 name' y -> shown_at ex_sha id name' (Some y) <> [$"x"] ++ rest).
Proof.
  cbv zeta. assert (At : forall name' r', attached ex_doc2 name' r' -> (name' = $"d/a.txt" /\ r' = (0, 5)) \/ (name' = [] /\ r' = (0, 6))).
  { intros name' r' [H|(p & Hp & H)]; [|cbn in Hp; destruct Hp as [<- |[]]; destruct H]. destruct H as [H|[H|[]]]; injection H as <- <-; tauto. }
  assert (On : forall name' y, on_page ex_digits ex_doc2 name' y -> name' = $"page_0_Im1.png" \/ name' = $"page_0.txt").
  { intros name' y (n & p & Hn & H). destruct n as [|[|n]]; cbn in Hn; try discriminate. injection Hn as <-. destruct H as [(img & [H|[]] & ->)|(_ & _ & ->)]; [injection H as <- <-; now left|now right]. }
  split. { split; [|split]; [cbn; repeat constructor; cbn; intuition congruence|cbn; repeat constructor; cbn; intuition congruence|]. intros name r o _ H. cbn in H. repeat destruct H as [[= <- <-]|H]; try lia. }
  split; [reflexivity|]. split; [left; right; now left|]. split; [intros name' H; destruct (At _ _ H) as [(_ & H')|(-> & _)]; [discriminate|reflexivity]|].
  split; [reflexivity|]. split; [|split].
  - intros name' r' rest H N E. destruct (At _ _ H) as [(-> & ->)|(_ & ->)]; [vm_compute in E; discriminate|contradiction].
  - intros name' y rest H N E. destruct (On _ _ H) as [-> | ->]; vm_compute in E; discriminate.
  - intros name' y rest H E. destruct (On _ _ H) as [-> | ->]; vm_compute in E; discriminate.
Qed.
