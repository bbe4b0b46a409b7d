(** C132: all files that are embedded in an HTML document are found, and nothing else. *)
From Coq Require Import Ascii String.
From Verif Require Import PyBase PyStr PyDict Html_Model Html_Spec Html_Proofs Html_Props HtmlCss_Model HtmlCss_Props HtmlDoc_Model HtmlDoc_Spec HtmlDoc_Proofs.
Local Open Scope Z_scope.

(** What a file that was found for an origin is. *)
Definition right (d : document) (o : origin) (u : option (list Z)) (b e : Z) : Prop :=
  match o with
  | OTag before name attrs tail n u0 after =>
      exists attrs1 a attrs2 v, attrs = attrs1 ++ a :: attrs2 /\ a_name a = n /\ value_of a = Some v /\ embeds v /\ original attrs n u0 /\ u = Some u0 /\
        holds d (before ++ 60 :: name ++ concat (map write_attribute attrs1) ++ up_to_value a) b e v
  | OText before data u0 b0 e0 after =>
      exists x v y, data = x ++ v ++ y /\ b0 = len x /\ e0 = len (x ++ v) /\ embeds v /\ u = u0 /\ holds d (before ++ x) b e v
  end.

Definition fits (d : document) (o : origin) : Prop :=
  match o with
  | OTag before name attrs tail n u after => In (n, u) (tag_candidates (map reported attrs)) /\ piece_ok (Tag name attrs tail false) /\
      characters d = before ++ write_tag name attrs tail ++ after
  | OText before data u b e after => In (u, b, e) (handle_data data) /\ characters d = before ++ data ++ after
  end.
Lemma origins_fit d ps : forall before, Forall piece_ok ps -> characters d = before ++ text_of ps -> Forall (fits d) (origins before ps).
Proof.
  induction ps as [|p ps IH]; intros before F E; [constructor|]. inversion F as [|? ? Hp F']; subst. change (text_of (p :: ps)) with (written p ++ text_of ps) in E.
  cbn [origins]. apply Forall_app. split; [|apply IH; [exact F'|rewrite E; apply app_assoc]].
  destruct p as [name attrs tail closed|s|s|s]; try constructor.
  - apply Forall_forall. intros o I. apply in_map_iff in I as ([n u] & <- & I). cbn [fits]. auto.
  - apply Forall_forall. intros o I. apply in_map_iff in I as ([[u b] e] & <- & I). cbn [fits]. auto.
Qed.

Lemma width_take d x y : d = x ++ y -> width (ztake (len x) d) = width x.
Proof. intros ->. now rewrite ztake_app_len. Qed.

Lemma origin_right d chunks o c : concat chunks = characters d -> Forall (fun x => 1 <= snd x) d -> fits d o -> comes o c ->
  exists s e b e', placed d chunks c s e /\ embedded_span d (k_attribute c) (width (ztake s d)) (width (ztake e d)) = Ok (Some (b, e')) /\ right d o (k_url c) b e'.
Proof.
  intros Hc W Ft Co. destruct o as [before name attrs tail n u after|before data u b0 e0 after].
  - destruct Ft as (I & (N & Fa & T & Nd & Up) & E). destruct Co as (C1 & C2 & C3 & C4).
    assert (exists m1 m2, after = m1 ++ m2 /\ match k_next c with
              | Some nx => nx = position (before ++ write_tag name attrs tail ++ m1) 1 0 | None => m2 = [] end) as (m1 & m2 & -> & Nx).
    { destruct C4 as [-> |(m1 & m2 & -> & ->)]; [exists after, []; now rewrite app_nil_r|exists m1, m2; auto]. }
    assert (E' : characters d = before ++ (write_tag name attrs tail ++ m1) ++ m2) by (rewrite E, <- app_assoc; reflexivity).
    destruct (split_doc d _ _ E') as (x & r & Ed & Ex & Er & Lx).
    destruct (split_doc r _ _ Er) as (tag & y & Er' & Et & Ey & Lt). subst r.
    assert (Et' : characters tag = write_tag name attrs (tail ++ m1)) by (rewrite Et; unfold write_tag; cbn [app]; rewrite <- !app_assoc; reflexivity).
    destruct (C109_tag name attrs tail N Fa T Nd Up) as (_ & Kn & Ku).
    destruct (proj1 (Kn n)) as (a & v & Ia & En & Va & Em); [apply (in_map fst) in I; exact I|]. rewrite <- En in C2, I.
    apply in_split in Ia as (before' & after' & Ea).
    rewrite Ed in W. apply Forall_app in W as [W1 W2]. apply Forall_app in W2 as [W2 W3].
    destruct (C110_attribute x tag y name before' a after' (tail ++ m1) v W1 W2) as (p & url & q & Etag & Eu & Epx & Sp & _); auto.
    { now rewrite <- Ea. } { now rewrite <- Ea. } { now apply tail_ok_app. }
    { intros b Ib Eb. rewrite Ea, map_app in Nd. cbn [map] in Nd. apply NoDup_remove_2 in Nd. apply Nd. rewrite in_app_iff. left. rewrite <- Eb. now apply in_map. }
    { destruct Em as (? & ? & ? & -> & _). discriminate. }
    exists (len x), (len (x ++ tag)), (width (x ++ p)), (width (x ++ p ++ url)).
    assert (Ld : len d = len x + len tag + len y) by (rewrite Ed, !len_app; lia).
    pose proof (len_nonneg x). pose proof (len_nonneg tag). pose proof (len_nonneg y). split; [|split].
    + unfold placed. rewrite C3. split; [rewrite Lx; apply (at_offset0 d chunks Hc before _ E')|]. rewrite !len_app. split; [|lia]. destruct (k_next c) as [nx|].
      * subst nx. rewrite (at_offset0 d chunks Hc (before ++ write_tag name attrs tail ++ m1) m2) by (rewrite E', <- !app_assoc; reflexivity). f_equal. rewrite (len_app before), Lx, Lt. reflexivity.
      * subst m2. assert (len y = 0) by (rewrite <- characters_len, Ey; reflexivity). lia.
    + rewrite C2. rewrite (width_take d x (tag ++ y) Ed), (width_take d (x ++ tag) y) by (rewrite Ed, app_assoc; reflexivity). rewrite Ed. exact Sp.
    + exists before', a, after', v. split; [exact Ea|]. repeat split; auto. { rewrite <- En. exact (proj1 (Ku _ _ I)). }
      exists (x ++ p), url, (q ++ y). split; [rewrite Ed, Etag, <- !app_assoc; reflexivity|]. split; [|split; [exact Eu|split; [reflexivity|now rewrite <- app_assoc]]].
      change (map fst (x ++ p)) with (characters (x ++ p)). rewrite characters_app, Ex. f_equal. exact Epx.
  - destruct Ft as (I & E). cbn [comes] in Co. subst c. cbn [k_url k_attribute k_start k_next].
    destruct (C121_sound data u b0 e0 I) as (v & px & py & -> & Eb & Ee & Em).
    assert (E' : characters d = (before ++ px) ++ v ++ (py ++ after)) by (rewrite E, <- !app_assoc; reflexivity).
    destruct (split_doc d _ _ E') as (x & r & Ed & Ex & Er & Lx). destruct (split_doc r _ _ Er) as (url & y & Er' & Eu & Ey & Lu). subst r.
    assert (Ld : len d = len x + len url + len y) by (rewrite Ed, !len_app; lia).
    pose proof (len_nonneg x). pose proof (len_nonneg url). pose proof (len_nonneg y).
    exists (len x), (len (x ++ url)), (width x), (width (x ++ url)). split; [|split].
    + unfold placed. cbn [k_start k_next fst snd]. rewrite !(at_offset d chunks Hc before ((px ++ v ++ py) ++ after)) by exact E.
      change (b0 = len px) in Eb. change (e0 = b0 + len v) in Ee. rewrite (len_app before) in Lx. rewrite (len_app x).
      split; [f_equal; lia|]. split; [f_equal; lia|]. lia.
    + rewrite (width_take d x (url ++ y) Ed), (width_take d (x ++ url) y) by (rewrite Ed, app_assoc; reflexivity). reflexivity.
    + exists px, v, py. split; [reflexivity|]. split; [exact Eb|]. split; [rewrite len_app, Ee, Eb; reflexivity|]. split; [exact Em|]. split; [reflexivity|].
      exists x, url, y. auto.
Qed.

(** Origins are the pieces. *)
Lemma origins_of before : forall now p after o, In o (match p with
    | Tag name attrs tail _ => map (fun '(n, u) => OTag (now ++ text_of before) name attrs tail n u (text_of after)) (tag_candidates (map reported attrs))
    | Text s => map (fun '(u, b, e) => OText (now ++ text_of before) s u b e (text_of after)) (handle_data s)
    | _ => [] end) -> In o (origins now (before ++ p :: after)).
Proof.
  induction before as [|q before IH]; intros now p after o I.
  - cbn [app]. change (text_of []) with (@nil Z) in I. rewrite app_nil_r in I. cbn [origins]. apply in_or_app. now left.
  - cbn [app origins]. apply in_or_app. right. apply IH. rewrite <- app_assoc. exact I.
Qed.
Lemma of_origins ps : forall now o, In o (origins now ps) -> exists before p after, ps = before ++ p :: after /\ In o (match p with
    | Tag name attrs tail _ => map (fun '(n, u) => OTag (now ++ text_of before) name attrs tail n u (text_of after)) (tag_candidates (map reported attrs))
    | Text s => map (fun '(u, b, e) => OText (now ++ text_of before) s u b e (text_of after)) (handle_data s)
    | _ => [] end).
Proof.
  induction ps as [|q ps IH]; intros now o I; [destruct I|]. cbn [origins] in I. apply in_app_or in I as [I|I].
  - exists [], q, ps. split; [reflexivity|]. change (text_of []) with (@nil Z). now rewrite app_nil_r.
  - apply IH in I as (before & p & after & -> & I). exists (q :: before), p, after. split; [reflexivity|]. rewrite <- app_assoc in I. exact I.
Qed.
Lemma placed_unique d chunks c s e s' e' : placed d chunks c s e -> placed d chunks c s' e' -> s = s' /\ e = e'.
Proof.
  intros (A & B & _) (A' & B' & _). split; [congruence|]. destruct (k_next c); congruence.
Qed.
Lemma Forall2_left {X Y} (R : X -> Y -> Prop) l m x : Forall2 R l m -> In x l -> exists y, In y m /\ R x y.
Proof. induction 1 as [|a b l m H F IH]; intros I; [destruct I|]. destruct I as [-> |I]; [exists b; split; [now left|exact H]|]. destruct (IH I) as (y & J & K). exists y. split; [now right|exact K]. Qed.
Lemma Forall2_right {X Y} (R : X -> Y -> Prop) l m y : Forall2 R l m -> In y m -> exists x, In x l /\ R x y.
Proof. induction 1 as [|a b l m H F IH]; intros I; [destruct I|]. destruct I as [-> |I]; [exists a; split; [now left|exact H]|]. destruct (IH I) as (x & J & K). exists x. split; [now right|exact K]. Qed.
Lemma same_split l l' a a' m m' : NoDup (map a_name (l ++ a :: m)) -> l ++ a :: m = l' ++ a' :: m' -> a_name a = a_name a' -> l = l' /\ a = a'.
Proof.
  revert l'. induction l as [|x l IH]; intros l' N E En; destruct l' as [|x' l']; cbn [app map] in *.
  - injection E as -> _. auto.
  - exfalso. injection E as -> ->. apply NoDup_cons_iff in N as [N _]. apply N. rewrite En, map_app, in_app_iff. right. now left.
  - exfalso. injection E as -> <-. apply NoDup_cons_iff in N as [N _]. apply N. rewrite <- En, map_app, in_app_iff. right. now left.
  - injection E as -> E. apply NoDup_cons_iff in N as [_ N]. destruct (IH l' N E En) as [-> ->]. auto.
Qed.

(** The document is read in any chunks and its characters take any numbers of bytes.  Gathering succeeds; every data URL that is the
    quoted value of an attribute of a start tag and has content is found, with its original URL; so is every data URL that is found in
    the text; and all that is found is one of those. *)
Theorem C132_gathered :
  forall (d : list (Z * Z)) (chunks : list (list Z)) (ps : list piece),
  Forall (fun x => 1 <= snd x) d -> map fst d = text_of ps -> concat chunks = text_of ps -> Forall piece_ok ps ->
  exists files, gather chunks d (calls [] ps) = Ok files /\
    (forall before name attrs1 a attrs2 tail closed after v, let attrs := attrs1 ++ a :: attrs2 in
       ps = before ++ Tag name attrs tail closed :: after -> value_of a = Some v -> embeds v ->
       exists u b e, In (Some u, b, e) files /\ original attrs (a_name a) u /\
         holds d (text_of before ++ 60 :: name ++ concat (map write_attribute attrs1) ++ up_to_value a) b e v) /\
    (forall before data after u b e, ps = before ++ Text data :: after -> In (u, b, e) (handle_data data) ->
       exists x v y b' e', In (u, b', e') files /\ data = x ++ v ++ y /\ b = Z.of_nat (List.length x) /\ e = Z.of_nat (List.length (x ++ v)) /\
         holds d (text_of before ++ x) b' e' v) /\
    (forall u b e, In (u, b, e) files -> exists before p after rest v, ps = before ++ p :: after /\ embeds v /\ holds d (text_of before ++ rest) b e v /\
       match p with
       | Tag name attrs tail _ => exists attrs1 a attrs2 u0, attrs = attrs1 ++ a :: attrs2 /\ value_of a = Some v /\ u = Some u0 /\ original attrs (a_name a) u0 /\
           rest = 60 :: name ++ concat (map write_attribute attrs1) ++ up_to_value a
       | Text data => exists x y, data = x ++ v ++ y /\ rest = x /\ In (u, len x, len (x ++ v)) (handle_data data)
       | _ => False
       end).
Proof.
  intros d chunks ps W Ed Hc F. change (map fst d) with (characters d) in Ed. rewrite <- Ed in Hc.
  pose proof (calls_origins ps [] [] [] (Forall2_nil _)) as Fc. cbn [app] in Fc. pose proof (origins_fit d ps [] F Ed) as Ff.
  set (os := origins [] ps) in *. set (cs := fold_left handle (calls [] ps) []) in *.
  rewrite Forall_forall in Ff.
  destruct (gather_ok d chunks Hc (calls [] ps) (fun c b e => forall o, In o os -> comes o c -> right d o (k_url c) b e)) as (files & G & Fg).
  { fold cs. intros c I. destruct (Forall2_right _ _ _ c Fc I) as (o & Io & Co).
    destruct (origin_right d chunks o c Hc W (Ff o Io) Co) as (s & e & b & e' & H1 & H2 & H3). exists s, e, b, e'. split; [exact H1|]. split; [exact H2|].
    intros o2 Io2 Co2. destruct (origin_right d chunks o2 c Hc W (Ff o2 Io2) Co2) as (s2 & e2 & b2 & e2' & K1 & K2 & K3).
    destruct (placed_unique _ _ _ _ _ _ _ H1 K1) as [-> ->]. rewrite H2 in K2. injection K2 as -> ->. exact K3. }
  fold cs in Fg. exists files. split; [exact G|].
  assert (Fwd : forall o, In o os -> exists u b e, In (u, b, e) files /\ right d o u b e).
  { intros o Io. destruct (Forall2_left _ _ _ o Fc Io) as (c & Ic & Co). destruct (Forall2_left _ _ _ c Fg Ic) as ([[u b] e] & If & Eu & R). cbn [fst snd] in *. subst u. eauto 6. }
  split; [|split].
  - intros before name attrs1 a attrs2 tail closed after v attrs Ep Va Em. assert (Ia : In a attrs) by (unfold attrs; rewrite in_app_iff; right; now left).
    assert (Hp : piece_ok (Tag name attrs tail closed)). { rewrite Forall_forall in F. apply F. rewrite Ep, in_app_iff. right. now left. }
    destruct Hp as (N & Fa & T & Nd & Up). destruct (C109_tag name attrs tail N Fa T Nd Up) as (_ & Kn & Ku).
    assert (In (a_name a) (map fst (tag_candidates (map reported attrs)))) as In1 by (apply Kn; exists a, v; auto).
    apply in_map_iff in In1 as ([n u] & En & In1). cbn [fst] in En. subst n.
    destruct (Fwd (OTag (text_of before) name attrs tail (a_name a) u (text_of after))) as (u' & b & e & If & attrs1' & a' & attrs2' & v' & Ea' & En & Va' & _ & Or & -> & Ho).
    { unfold os. rewrite Ep. apply origins_of. cbn [app]. apply in_map_iff. exists (a_name a, u). auto. }
    destruct (same_split attrs1 attrs1' a a' attrs2 attrs2') as [<- <-]; [exact Nd|exact Ea'|now symmetry|]. rewrite Va in Va'. injection Va' as <-. exists u, b, e. auto.
  - intros before data after u b e Ep I.
    destruct (Fwd (OText (text_of before) data u b e (text_of after))) as (u' & b' & e' & If & x & v & y & Ed' & Eb & Ee & _ & -> & Ho).
    { unfold os. rewrite Ep. apply origins_of. cbn [app]. apply in_map_iff. exists (u, b, e). auto. }
    exists x, v, y, b', e'. auto.
  - intros u b e I. destruct (Forall2_right _ _ _ _ Fg I) as (c & Ic & Eu & R). cbn [fst snd] in *. subst u.
    destruct (Forall2_right _ _ _ c Fc Ic) as (o & Io & Co). specialize (R o Io Co). apply of_origins in Io as (before & p & after & Ep & Io). cbn [app] in Io.
    destruct p as [name attrs tail closed|s|s|s]; try destruct Io.
    + apply in_map_iff in Io as ([n u] & <- & Io). destruct R as (attrs1 & a & attrs2 & v & Ea & En & Va & Em & Or & Eu & Ho).
      exists before, (Tag name attrs tail closed), after, (60 :: name ++ concat (map write_attribute attrs1) ++ up_to_value a), v. repeat split; auto.
      exists attrs1, a, attrs2, u. rewrite En. auto.
    + apply in_map_iff in Io as ([[u b0] e0] & <- & Io). destruct R as (x & v & y & Es & -> & -> & Em & Eu & Ho).
      exists before, (Text s), after, x, v. repeat split; auto. exists x, y. rewrite Eu. auto.
Qed.
Print Assumptions C132_gathered.

(** A page with a picture, a closed tag with two data URLs of which one has an original URL, a comment with a two-byte character, and a
    style sheet; it is read in two chunks. *)
Definition quoted (n v : string) : attribute := mkAttribute [32] (letters n) (Some ([], [], Some 34, letters v)).
Definition page : list piece :=
  [Ending (letters "<!DOCTYPE html>" ++ [10]); Tag (letters "img") [quoted "alt" "x"; quoted "src" "data:,one"] [62] false;
   Silent (letters "<!-- " ++ [228; 10] ++ letters " -->");
   Tag (letters "iframe") [quoted "src" "data:,two"; quoted "data-savepage-src" "http://a/b"; quoted "href" "data:text/html,three"] (letters "/>") true;
   Tag (letters "style") [] [62] false; Text ([10] ++ letters "a { b: url(data:,four) }"); Ending (letters "</style>")].
Definition page_bytes : list (Z * Z) := map (fun c => (c, if c =? 228 then 2 else 1)) (text_of page).
Example C132_case :
  Forall (fun x => 1 <= snd x) page_bytes /\ map fst page_bytes = text_of page /\ Forall piece_ok page /\
  gather [firstn 30 (text_of page); skipn 30 (text_of page)] page_bytes (calls [] page) =
    Ok [(Some [], 34, 43); (Some (letters "http://a/b"), 70, 79); (Some [], 118, 138); (None, 160, 170)].
Proof.
  split; [apply Forall_map, Forall_forall; intros c _; cbn [snd]; destruct (c =? 228); lia|]. split; [unfold page_bytes; rewrite map_map; apply map_id|]. split; [|vm_compute; reflexivity].
  assert (Q : forall n v c r, letters n = c :: r -> lower_letter c -> Forall name_char r -> ~ In 34 (letters v) -> attribute_ok (quoted n v)).
  { intros n v c r E L R Nq. split; [discriminate|]. split; [repeat constructor|]. split; [exists c, r; cbn [quoted a_name]; auto|].
    split; [constructor|]. split; [constructor|]. exists 34. auto. }
  assert (forall s c, In c (letters s) -> forallb (fun c => negb ((65 <=? c) && (c <=? 90))) (letters s) = true -> ~ upper_letter c) as U.
  { intros s c I H. rewrite forallb_forall in H. specialize (H c I). unfold upper_letter. lia. }
  repeat (apply Forall_cons || apply Forall_nil); cbn [piece_ok]; trivial; (split; [eexists; eexists; split; [reflexivity|]; split; [left; cbv -[Z.le]; lia|repeat (apply Forall_cons || apply Forall_nil); cbv -[Z.le]; lia]|]);
    (split; [repeat (apply Forall_cons || apply Forall_nil);
       (eapply Q; [reflexivity|cbv -[Z.le]; lia|repeat (apply Forall_cons || apply Forall_nil); cbv -[Z.le]; lia|cbn; intuition discriminate])|]);
    (split; [unfold tail_ok; exists []; eexists; eexists; split; [reflexivity|]; split; [constructor|auto]|]);
    (split; [cbn [map quoted a_name]; repeat constructor; cbn; intuition discriminate|]);
    intros a c I J; cbn [In] in I; repeat destruct I as [<-|I]; try destruct I; cbn [quoted a_name] in J; (eapply U; [exact J|reflexivity]).
Qed.
