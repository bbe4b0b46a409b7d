(** Property C121: data URLs in style sheets and scripts are found. *)
From Coq Require Import Ascii String.
From Verif Require Import PyBase PyStr PyDict Html_Model Html_Spec Html_Proofs HtmlCss_Model HtmlCss_Spec.
Local Open Scope Z_scope.

Lemma find_iter_skip matcher t : forall w at_ fuel, (List.length (t ++ w) <= fuel)%nat ->
  (forall a b, t = a ++ b -> b <> [] -> matcher (b ++ w) = None) ->
  find_iter matcher fuel at_ (t ++ w) = find_iter matcher (fuel - List.length t) (at_ + len t) w.
Proof.
  induction t as [|c t IH]; intros w at_ fuel L H; cbn [app List.length].
  - now rewrite Nat.sub_0_r, Z.add_0_r.
  - destruct fuel as [|fuel]; [cbn in L; lia|]. cbn [find_iter]. rewrite (H [] (c :: t) eq_refl ltac:(discriminate) : matcher (c :: t ++ w) = None). rewrite IH.
    + cbn [Nat.sub]. f_equal. unfold len. cbn [List.length]. lia.
    + cbn in L. lia.
    + intros a b E N. apply (H (c :: a) b); [now rewrite E|exact N].
Qed.
Lemma find_iter_nil matcher fuel at_ : find_iter matcher fuel at_ [] = [].
Proof. now destruct fuel. Qed.
Lemma find_iter_none matcher s fuel at_ : (forall a b, s = a ++ b -> b <> [] -> matcher b = None) -> (List.length s <= fuel)%nat -> find_iter matcher fuel at_ s = [].
Proof.
  intros H L. rewrite <- (app_nil_r s). rewrite find_iter_skip; [apply find_iter_nil|now rewrite app_nil_r|]. intros a b E N. rewrite app_nil_r. now apply (H a).
Qed.
Lemma find_iter_hit matcher p w fuel at_ m : matcher (p ++ w) = Some m -> g_length m = len p -> p <> [] ->
  find_iter matcher (S fuel) at_ (p ++ w) = (at_, m) :: find_iter matcher fuel (at_ + len p) w.
Proof.
  intros H L N. cbn [find_iter]. destruct p as [|c p]; [contradiction|]. cbn [app] in *. rewrite H, L. change (c :: p ++ w) with ((c :: p) ++ w). now rewrite zskip_app_len.
Qed.

Lemma matched_url mime ps data : mime = [] \/ media_type mime -> Forall (Forall plain_char) ps ->
  exists m, match_data_url (letters "data:" ++ mime ++ write_parameters ps ++ 44 :: data) = Some (m, ps, data).
Proof.
  intros [-> |M] F; [|eexists; now apply match_url_ok]. cbn [app]. unfold match_data_url. change (letters "data:") with (chars "data:"). rewrite (proj2 (text_start_spec _ _)) by eauto. cbn [negb].
  change 5 with (len (chars "data:")). rewrite zskip_app_len.
  pose proof (span_all is_plain [] (write_parameters ps ++ 44 :: data) ltac:(constructor) ltac:(destruct ps; reflexivity)) as E. cbn [app] in E. rewrite E.
  rewrite parameters_ok; [eauto|exact F|lia].
Qed.
Lemma closed_ok close u w : data_url u -> ~ In close u -> closed_data_url close (u ++ close :: w) = Some (len u).
Proof.
  intros (mime & ps & data & -> & M & F & N) C. unfold closed_data_url.
  replace ((letters "data:" ++ mime ++ write_parameters ps ++ 44 :: data) ++ close :: w) with (letters "data:" ++ mime ++ write_parameters ps ++ 44 :: (data ++ close :: w))
    by (repeat (rewrite <- ?app_assoc; cbn [app]); reflexivity).
  destruct (matched_url mime ps (data ++ close :: w) M F) as (m & ->).
  rewrite (span_all (fun c => negb (c =? close)) data (close :: w)).
  - destruct data as [|d data]; [contradiction|]. f_equal. rewrite !len_app. unfold len. cbn [List.length]. rewrite !app_length. cbn [List.length]. lia.
  - rewrite Forall_forall. intros c I. apply negb_true_iff, Z.eqb_neq. intros ->. apply C. rewrite !in_app_iff. cbn. tauto.
  - now rewrite Z.eqb_refl.
Qed.
Lemma match_url_ok' u w : data_url u -> ~ In 41 u -> match_url (letters "url(" ++ u ++ 41 :: w) = Some (len u).
Proof.
  intros D N. unfold match_url. change (letters "url(") with (chars "url("). rewrite (proj2 (text_start_spec _ _)) by eauto. change 4 with (len (chars "url(")). rewrite zskip_app_len. now apply closed_ok.
Qed.

Lemma match_css_ok o u w : data_url u -> ~ In 41 u -> match o with Some o => o <> [] /\ ~ In 42 o | None => True end ->
  match_css (opening o ++ u ++ 41 :: w) = Some (mkFound o (len (opening o)) (len (opening o) + len u) (len (opening o ++ u ++ [41]))).
Proof.
  intros D N O. unfold match_css. destruct o as [o|]; cbn [opening].
  - destruct O as [No O42]. rewrite <- !app_assoc. change (letters "/*savepage-url=") with (chars "/*savepage-url="). rewrite (proj2 (text_start_spec _ _)) by eauto. rewrite zskip_app_len.
    rewrite (span_all (fun c => negb (c =? 42)) o); [| |reflexivity].
    2:{ rewrite Forall_forall. intros c I. apply negb_true_iff, Z.eqb_neq. intros ->. contradiction. }
    destruct o as [|c o]; [contradiction|]. set (oo := c :: o) in *.
    change (letters "*/url(") with (chars "*/" ++ letters "url("). rewrite <- app_assoc. rewrite (proj2 (text_start_spec _ _)) by eauto.
    change (zskip 2 (chars "*/" ++ letters "url(" ++ u ++ 41 :: w)) with (zskip (len (chars "*/")) (chars "*/" ++ letters "url(" ++ u ++ 41 :: w)).
    rewrite zskip_app_len, (match_url_ok' u w D N). f_equal. rewrite !len_app. change (len (chars "*/")) with 2. change (len (letters "url(")) with 4. change (len [41]) with 1. f_equal; lia.
  - assert (text_start (chars "/*savepage-url=") (letters "url(" ++ u ++ 41 :: w) = false) as -> by reflexivity. rewrite (match_url_ok' u w D N). f_equal. 
    rewrite !len_app. change (len (letters "url(")) with 4. change (len [41]) with 1. f_equal; lia.
Qed.

(** What follows a text: the end, or a link. *)
Definition follows (w : list Z) : Prop := w = [] \/ (exists r, w = letters "url(" ++ r) \/ (exists r, w = letters "/*savepage-url=" ++ r).

Lemma straddle needle b w : text_start needle (b ++ w) = true -> (exists r, b = needle ++ r) \/ (exists p, p <> [] /\ needle = b ++ p /\ text_start p w = true).
Proof.
  revert b. induction needle as [|c needle IH]; intros b H; [left; now exists b|]. destruct b as [|x b].
  - right. exists (c :: needle). split; [discriminate|]. split; [reflexivity|exact H].
  - cbn [app text_start] in H. apply andb_true_iff in H as [E H]. apply Z.eqb_eq in E. subst x. destruct (IH b H) as [(r & ->)|(p & Np & -> & Hp)]; [left; now exists r|right; now exists p].
Qed.
Lemma no_start needle t w : (needle = letters "url(" \/ needle = letters "/*savepage-url=") -> follows w -> ~ occurs needle t ->
  forall a b, t = a ++ b -> b <> [] -> text_start needle (b ++ w) = false.
Proof.
  intros Hn Hw No a b -> Nb. destruct (text_start needle (b ++ w)) eqn:E; [|reflexivity]. exfalso. apply straddle in E as [(r & ->)|(p & Np & E & Hp)]; [apply No; now exists a, r|].
  destruct b as [|x b]; [contradiction|].
  assert (forall y z, follows w -> text_start (y :: z) w = true -> y = 117 \/ y = 47) as First.
  { intros y z [-> |[(r & ->)|(r & ->)]] H; [discriminate| |]; cbn in H; apply andb_true_iff in H as [H _]; apply Z.eqb_eq in H; auto. }
  destruct p as [|y z]; [contradiction|]. pose proof (First y z Hw Hp) as Hy.
  destruct Hn as [-> | ->].
  - change (letters "url(") with [117; 114; 108; 40] in E. do 3 (destruct b as [|? b]; [cbn [app] in E; injection E; intros; subst; lia|]). destruct b; discriminate E.
  - change (letters "/*savepage-url=") with [47; 42; 115; 97; 118; 101; 112; 97; 103; 101; 45; 117; 114; 108; 61] in E.
    do 10 (destruct b as [|? b]; [cbn [app] in E; injection E; intros; subst; lia|]).
    destruct b as [|? b].
    { cbn [app] in E. injection E as _ _ _ _ _ _ _ _ _ _ _ <- <-. destruct Hw as [-> |[(r & ->)|(r & ->)]]; vm_compute in Hp; discriminate. }
    do 3 (destruct b as [|? b]; [cbn [app] in E; injection E; intros; subst; lia|]). destruct b; discriminate E.
Qed.
Lemma match_css_none s : text_start (letters "url(") s = false -> text_start (letters "/*savepage-url=") s = false -> match_css s = None.
Proof. intros H1 H2. unfold match_css, match_url. change (chars "/*savepage-url=") with (letters "/*savepage-url="). change (chars "url(") with (letters "url("). now rewrite H1, H2. Qed.


Lemma find_css links last : Forall sheet_link links -> sheet_text last -> forall at_ fuel, (List.length (write_sheet links last) <= fuel)%nat ->
  map (fun '(p, m) => (g_url m, p + g_start m, p + g_end m)) (find_iter match_css fuel at_ (write_sheet links last)) = places at_ links.
Proof.
  intros F T. induction links as [|[[t o] u] links IH]; intros at_ fuel L; cbn [write_sheet places].
  - rewrite find_iter_none; [reflexivity| |exact L]. intros a b E N. destruct T as [T1 T2]. rewrite <- (app_nil_r b).
    apply match_css_none; (eapply no_start; [auto|now left| |exact E|exact N]; assumption).
  - apply Forall_cons_iff in F as [(Ht & D & N41 & O) F]. cbn [write_sheet] in L.
    assert (Hw : follows (opening o ++ u ++ [41] ++ write_sheet links last)).
    { right. destruct o as [o|]; [right|left]; cbn [opening]; eexists; rewrite <- ?app_assoc; reflexivity. }
    rewrite find_iter_skip; [|exact L|].
    2:{ intros a b E N. destruct Ht as [T1 T2]. apply match_css_none; (eapply no_start; [auto|exact Hw| |exact E|exact N]; assumption). }
    rewrite app_length in L. destruct (fuel - List.length t)%nat as [|f] eqn:Ef.
    { exfalso. rewrite app_length in L. assert (0 < List.length (opening o))%nat by (destruct o; cbn; lia). lia. }
    pose proof (match_css_ok o u (write_sheet links last) D N41 O) as M.
    replace (opening o ++ u ++ [41] ++ write_sheet links last) with ((opening o ++ u ++ [41]) ++ write_sheet links last) by (rewrite <- !app_assoc; reflexivity).
    rewrite (find_iter_hit match_css (opening o ++ u ++ [41]) (write_sheet links last) f (at_ + len t)
      (mkFound o (len (opening o)) (len (opening o) + len u) (len (opening o ++ u ++ [41])))).
    + cbn [map g_url g_start g_end]. rewrite IH.
      * rewrite !len_app. change (len [41]) with 1. unfold len. f_equal; [f_equal; lia|f_equal; lia].
      * exact F.
      * rewrite !app_length in L. cbn [List.length] in L. assert (0 < List.length (opening o))%nat by (destruct o; cbn; lia). lia.
    + rewrite <- !app_assoc. exact M.
    + reflexivity.
    + destruct o; discriminate.
Qed.

Lemma quoted_none q s fuel at_ : ~ In q s -> (List.length s <= fuel)%nat -> find_iter (match_quoted q) fuel at_ s = [].
Proof.
  intros N L. apply find_iter_none; [|exact L]. intros a b -> Nb. destruct b as [|c b]; [contradiction|]. cbn [match_quoted]. destruct (Z.eqb_spec c q) as [-> |]; [|reflexivity].
  exfalso. apply N. apply in_or_app. right. now left.
Qed.

(** In a style sheet without quotes, exactly the data URLs are found, each at its place and with its original URL. *)
Theorem C121_style_sheet :
  forall links last, Forall sheet_link links -> sheet_text last ->
  ~ In 34 (write_sheet links last) -> ~ In 39 (write_sheet links last) ->
  handle_data (write_sheet links last) = places 0 links.
Proof.
  intros links last F T N1 N2. unfold handle_data, find_all. rewrite !map_app, (find_css links last F T) by lia. rewrite !quoted_none by (assumption || lia). apply app_nil_r.
Qed.
Print Assumptions C121_style_sheet.

(** Between the positions that are told is the data URL. *)
Theorem C121_places :
  forall links last o b e, In (o, b, e) (places 0 links) -> exists t u, In (t, o, u) links /\ between (write_sheet links last) b e = u.
Proof.
  intros links last o b e. set (sheet := write_sheet links last).
  assert (forall pre rest at_, sheet = pre ++ write_sheet rest last -> at_ = Z.of_nat (List.length pre) -> In (o, b, e) (places at_ rest) ->
    exists t u, In (t, o, u) rest /\ between sheet b e = u) as H.
  { intros pre rest. revert pre. induction rest as [|[[t o'] u] rest IH]; intros pre at_ E A I; [destruct I|]. cbn [places] in I. cbn [write_sheet] in E. destruct I as [I|I].
    - injection I as <- Hb He. exists t, u. split; [now left|]. subst at_. unfold between.
      replace (Z.to_nat (e - b)) with (List.length u) by lia. replace (Z.to_nat b) with (List.length (pre ++ t ++ opening o')) by (rewrite !app_length; lia).
      rewrite E. replace (pre ++ t ++ opening o' ++ u ++ [41] ++ write_sheet rest last) with ((pre ++ t ++ opening o') ++ u ++ [41] ++ write_sheet rest last) by (rewrite <- !app_assoc; reflexivity).
      rewrite skipn_app, skipn_all, Nat.sub_diag. cbn [skipn app]. rewrite firstn_app, firstn_all, Nat.sub_diag. cbn [firstn]. apply app_nil_r.
    - destruct (IH (pre ++ t ++ opening o' ++ u ++ [41]) (at_ + Z.of_nat (List.length t) + Z.of_nat (List.length (opening o')) + Z.of_nat (List.length u) + 1)) as (t' & u' & I' & B).
      + rewrite E. rewrite <- !app_assoc. reflexivity.
      + rewrite !app_length. cbn [List.length]. lia.
      + exact I.
      + exists t', u'. split; [now right|exact B]. }
  intros I. apply (H [] links 0); [reflexivity|reflexivity|exact I].
Qed.
Print Assumptions C121_places.

Lemma match_url_none s a b : ~ occurs (letters "url(data:") s -> s = a ++ b -> match_url b = None.
Proof.
  intros N E. unfold match_url. destruct (text_start (chars "url(") b) eqn:S; [|reflexivity]. apply text_start_spec in S as (r & ->).
  change 4 with (len (chars "url(")). rewrite zskip_app_len. unfold closed_data_url, match_data_url. destruct (text_start (chars "data:") r) eqn:S; [|reflexivity].
  exfalso. apply text_start_spec in S as (r' & ->). apply N. exists a, r'. exact E.
Qed.
Lemma match_css_none' s a b : ~ occurs (letters "url(data:") s -> s = a ++ b -> match_css b = None.
Proof.
  intros N E. unfold match_css. rewrite (match_url_none s a b N E).
  destruct (text_start (chars "/*savepage-url=") b) eqn:S; [|reflexivity]. apply text_start_spec in S as (r & ->). rewrite zskip_app_len.
  assert (forall f x, exists y, x = y ++ snd (span f x)) as Sp. { intros f x. induction x as [|c x IH]; [now exists []|]. cbn [span]. destruct (f c); [|now exists []]. destruct (span f x) as [p q]. destruct IH as (y & ->). now exists (c :: y). }
  destruct (Sp (fun c => negb (c =? 42)) r) as (y & Ey). destruct (span _ r) as [u rest]. cbn [snd] in Ey. destruct u as [|c u]; [reflexivity|].
  destruct (text_start (chars "*/") rest) eqn:S; [|reflexivity]. apply text_start_spec in S as (r2 & ->). change 2 with (len (chars "*/")) at 1. rewrite zskip_app_len.
  rewrite (match_url_none s (a ++ chars "/*savepage-url=" ++ y ++ chars "*/") r2 N); [reflexivity|]. rewrite E, Ey. rewrite <- !app_assoc. reflexivity.
Qed.

Lemma find_quoted q links last : q = 34 \/ q = 39 -> Forall (fun l => data_url (snd l) /\ ~ In q (snd l) /\ ~ occurs (q :: letters "data:") (fst l)) links -> ~ occurs (q :: letters "data:") last ->
  forall at_ fuel, (List.length (write_quoted q links last) <= fuel)%nat ->
  map (fun '(p, m) => (g_url m, p + g_start m, p + g_end m)) (find_iter (match_quoted q) fuel at_ (write_quoted q links last)) = quoted_places at_ links.
Proof.
  intros Q F T.
  assert (No : forall t w, ~ occurs (q :: letters "data:") t -> (w = [] \/ exists r, w = q :: r) -> forall a b, t = a ++ b -> b <> [] -> match_quoted q (b ++ w) = None).
  { intros t w Nt Hw a b -> Nb. destruct b as [|c b]; [contradiction|]. cbn [app match_quoted]. destruct (Z.eqb_spec c q) as [-> |]; [|reflexivity].
    unfold closed_data_url, match_data_url. destruct (text_start (chars "data:") (b ++ w)) eqn:S; [|reflexivity]. exfalso.
    apply straddle in S as [(r & ->)|(p & Np & E & Hp)]; [apply Nt; now exists a, r|]. destruct p as [|y p]; [contradiction|].
    assert (y = q) as ->. { destruct Hw as [-> |(r & ->)]; [discriminate|]. cbn [text_start] in Hp. apply andb_true_iff in Hp as [Hp _]. now apply Z.eqb_eq in Hp. }
    assert (In q (chars "data:")) as I by (rewrite E; apply in_or_app; right; now left). cbn in I. destruct Q; subst q; intuition discriminate. }
  induction links as [|[t u] links IH]; intros at_ fuel L; cbn [write_quoted quoted_places].
  - rewrite find_iter_none; [reflexivity| |exact L]. intros a b E N. rewrite <- (app_nil_r b). apply (No last [] T (or_introl eq_refl) a b E N).
  - apply Forall_cons_iff in F as [(D & Nq & Ht) F]. cbn [fst snd] in *. cbn [write_quoted] in L.
    rewrite find_iter_skip; [|exact L|].
    2:{ intros a b E N. apply (No t _ Ht) with (a := a); [right; eexists; reflexivity|exact E|exact N]. }
    rewrite app_length in L. destruct (fuel - List.length t)%nat as [|f] eqn:Ef; [exfalso; cbn in L; lia|].
    replace ([q] ++ u ++ [q] ++ write_quoted q links last) with ((q :: u ++ [q]) ++ write_quoted q links last) by (cbn [app]; rewrite <- !app_assoc; reflexivity).
    rewrite (find_iter_hit (match_quoted q) (q :: u ++ [q]) (write_quoted q links last) f (at_ + len t) (mkFound None 1 (1 + len u) (1 + len u + 1))).
    + cbn [map g_url g_start g_end]. rewrite IH.
      * unfold len. cbn [List.length]. rewrite app_length. cbn [List.length]. f_equal; [f_equal; lia|f_equal; lia].
      * exact F.
      * cbn [app List.length] in L. rewrite !app_length in L. cbn [List.length] in L. lia.
    + cbn [app match_quoted]. rewrite Z.eqb_refl. rewrite <- app_assoc. cbn [app]. now rewrite (closed_ok q u (write_quoted q links last) D Nq).
    + cbn [g_length]. unfold len. cbn [List.length]. rewrite app_length. cbn [List.length]. lia.
    + discriminate.
Qed.

(** Data URLs in quotes of one kind are found, too, and nothing else. *)
Theorem C121_quoted_partial :
  forall q q' links last, q = 34 /\ q' = 39 \/ q = 39 /\ q' = 34 ->
  Forall (fun l => data_url (snd l) /\ ~ In q (snd l) /\ ~ occurs (q :: letters "data:") (fst l)) links -> ~ occurs (q :: letters "data:") last ->
  ~ occurs (letters "url(data:") (write_quoted q links last) -> ~ In q' (write_quoted q links last) ->
  handle_data (write_quoted q links last) = quoted_places 0 links.
Proof.
  intros q q' links last Q F T N1 N2. unfold handle_data, find_all.
  assert (find_iter match_css (Datatypes.length (write_quoted q links last)) 0 (write_quoted q links last) = []) as ->.
  { apply find_iter_none; [|lia]. intros a b E _. now apply (match_css_none' _ a b N1). }
  rewrite !map_app. cbn [map app].
  destruct Q as [(-> & ->)|(-> & ->)]; rewrite (quoted_none _ _ _ _ N2) by lia; cbn [map app]; [|rewrite app_nil_r]; apply find_quoted; auto.
Qed.
Print Assumptions C121_quoted_partial.

(** Whatever the text is: what is found is a data URL with content, at the place that is told. *)
Lemma span_parts f x : exists y, x = y ++ snd (span f x) /\ fst (span f x) = y /\ Forall (fun c => f c = true) y.
Proof.
  induction x as [|c x IH]; [now exists []|]. cbn [span]. destruct (f c) eqn:E; [|now exists []]. destruct (span f x) as [p q]. cbn [fst snd] in *. destruct IH as (y & -> & -> & F).
  exists (c :: y). repeat split. now constructor.
Qed.
Lemma parameters_parts fuel : forall s ps rest, match_parameters fuel s = (ps, rest) -> exists x, s = x ++ rest /\ ~ In 44 x.
Proof.
  induction fuel as [|fuel IH]; intros s ps rest H; [injection H as <- <-; now exists []|].
  assert (match_parameters (S fuel) s = match s with 59 :: r => let '(p, rest) := span is_plain r in let '(ps, rest) := match_parameters fuel rest in (p :: ps, rest) | _ => ([], s) end) as D by reflexivity.
  rewrite D in H. clear D. assert (s = 59 :: tl s \/ ([], s) = (ps, rest)) as [E|E].
  { destruct s as [|c s]; [now right|]. destruct (Z.eq_dec c 59) as [-> |N]; [now left|right]. revert H. destruct c as [|c|c]; auto. do 6 (try destruct c as [c|c|]; auto). contradiction. }
  - destruct s as [|c s]; [discriminate|]. injection E as ->. destruct (span_parts is_plain s) as (y & Es & _ & F). destruct (span is_plain s) as [p q]. cbn [fst snd] in *. 
    destruct (match_parameters fuel q) as [ps' rest'] eqn:M. injection H as <- <-. destruct (IH _ _ _ M) as (x & -> & Nx). exists (59 :: y ++ x). split; [rewrite Es; cbn [app]; now rewrite <- app_assoc|].
    intros I. cbn in I. destruct I as [I|I]; [discriminate|]. apply in_app_or in I as [I|I]; [|contradiction]. rewrite Forall_forall in F. specialize (F 44 I). discriminate.
  - injection E as <- <-. now exists [].
Qed.
Lemma matched_parts s m ps data : match_data_url s = Some (m, ps, data) -> exists x, s = letters "data:" ++ x ++ 44 :: data /\ ~ In 44 x.
Proof.
  intros H. unfold match_data_url in H. destruct (text_start (chars "data:") s) eqn:T; [|discriminate]. apply text_start_spec in T as (r & ->). cbn [negb] in H.
  change 5 with (len (chars "data:")) in H. rewrite zskip_app_len in H. destruct (span_parts is_plain r) as (y & Er & _ & F). destruct (span is_plain r) as [mime rest]. cbn [fst snd] in *.
  destruct (match mime with [] => false | _ => _ end); [discriminate|]. destruct (match_parameters (List.length rest) rest) as [ps' rest'] eqn:M. destruct (parameters_parts _ _ _ _ M) as (x & Ex & Nx).
  assert (rest' = 44 :: data) as E.
  { destruct rest' as [|c t]; [discriminate|]. destruct (Z.eq_dec c 44) as [-> |N]; [congruence|]. revert H. destruct c as [|c|c]; try discriminate. do 6 (try destruct c as [c|c|]; try discriminate). contradiction. }
  subst rest'. exists (y ++ x). rewrite Er, Ex. split; [rewrite <- !app_assoc; reflexivity|]. intros I. apply in_app_or in I as [I|I]; [|contradiction]. rewrite Forall_forall in F. specialize (F 44 I). discriminate.
Qed.
Lemma some_inj {A} (a b : A) : Some a = Some b -> a = b.
Proof. congruence. Qed.
Lemma closed_parts close s n : closed_data_url close s = Some n -> exists u w, s = u ++ close :: w /\ n = len u /\ embeds u.
Proof.
  unfold closed_data_url. destruct (match_data_url s) as [[[m ps] data]|] eqn:M; [|discriminate]. destruct (matched_parts _ _ _ _ M) as (x & -> & Nx).
  destruct (span_parts (fun c => negb (c =? close)) data) as (y & Ed & Ey & _).
  assert (snd (span (fun c => negb (c =? close)) data) = [] \/ exists w, snd (span (fun c => negb (c =? close)) data) = close :: w) as Hr.
  { clear. induction data as [|c data IH]; [now left|]. cbn [span]. destruct (Z.eqb_spec c close) as [-> |]; cbn [negb]; [right; now exists data|]. destruct (span _ data). exact IH. }
  destruct (span _ data) as [d rest]. cbn [fst snd] in *. subst y. destruct d as [|d0 d]; [discriminate|]. destruct Hr as [-> |(w & ->)]; [discriminate|]. intros E. apply some_inj in E. subst n.
  exists (letters "data:" ++ x ++ 44 :: d0 :: d), w. split; [rewrite Ed; repeat (rewrite <- ?app_assoc; cbn [app]); reflexivity|]. split.
  - rewrite Ed. clear. generalize (letters "data:"). intros k. unfold len. rewrite !app_length. cbn [List.length app]. rewrite !app_length. cbn [List.length]. lia.
  - exists x, d0, d. auto.
Qed.
Definition sound_match (s : list Z) (m : found) : Prop :=
  0 < g_length m <= len s /\ exists pre u post, s = pre ++ u ++ post /\ g_start m = len pre /\ g_end m = len pre + len u /\ embeds u.
Lemma match_url_parts s n : match_url s = Some n -> exists u w, s = letters "url(" ++ u ++ 41 :: w /\ n = len u /\ embeds u.
Proof.
  unfold match_url. destruct (text_start (chars "url(") s) eqn:T; [|discriminate]. apply text_start_spec in T as (r & ->). change 4 with (len (chars "url(")). rewrite zskip_app_len.
  intros H. apply closed_parts in H as (u & w & -> & -> & E). exists u, w. auto.
Qed.
Lemma match_css_parts s m : match_css s = Some m -> sound_match s m.
Proof.
  unfold match_css. intros H.
  assert (Plain : match match_url s with Some n => Some (mkFound None 4 (4 + n) (4 + n + 1)) | None => None end = Some m -> sound_match s m).
  { clear H. destruct (match_url s) as [n|] eqn:M; [|discriminate]. intros E0. apply some_inj in E0. subst m. apply match_url_parts in M as (u & w & -> & -> & E). split; cbn [g_length g_start g_end].
    - rewrite !len_app. change (len (letters "url(")) with 4. pose proof (len_nonneg u). pose proof (len_nonneg w). unfold len in *. cbn [List.length]. lia.
    - exists (letters "url("), u, (41 :: w). auto. }
  destruct (text_start (chars "/*savepage-url=") s) eqn:T; [|now apply Plain]. apply text_start_spec in T as (r & ->). rewrite zskip_app_len in H.
  destruct (span_parts (fun c => negb (c =? 42)) r) as (y & Er & Ey & _). destruct (span _ r) as [u rest]. cbn [fst snd] in *. subst y. destruct u as [|c u]; [now apply Plain|]. set (uu := c :: u) in *.
  destruct (text_start (chars "*/") rest) eqn:T; [|now apply Plain]. apply text_start_spec in T as (r2 & ->). 
  change (zskip 2 (chars "*/" ++ r2)) with (zskip (len (chars "*/")) (chars "*/" ++ r2)) in H. rewrite zskip_app_len in H.
  destruct (match_url r2) as [n|] eqn:M; [|now apply Plain]. apply some_inj in H. subst m. apply match_url_parts in M as (d & w & -> & -> & E).
  split; cbn [g_length g_start g_end].
  - rewrite Er, !len_app. change (len (chars "*/")) with 2. change (len (letters "url(")) with 4. change (len (chars "/*savepage-url=")) with 15. pose proof (len_nonneg uu). pose proof (len_nonneg d). pose proof (len_nonneg w).
    unfold len in *. cbn [List.length]. lia.
  - exists (chars "/*savepage-url=" ++ uu ++ chars "*/" ++ letters "url("), d, (41 :: w). split; [rewrite Er; rewrite <- !app_assoc; reflexivity|]. rewrite !len_app. change (len (chars "*/")) with 2. change (len (letters "url(")) with 4.
    split; [lia|]. split; [lia|exact E].
Qed.
Lemma match_quoted_parts q s m : match_quoted q s = Some m -> sound_match s m.
Proof.
  destruct s as [|c s]; [discriminate|]. cbn [match_quoted]. destruct (Z.eqb_spec c q) as [-> |]; [|discriminate]. destruct (closed_data_url q s) as [n|] eqn:C; [|discriminate]. intros E0. apply some_inj in E0. subst m.
  apply closed_parts in C as (u & w & -> & -> & E). split; cbn [g_length g_start g_end].
  - pose proof (len_nonneg u). pose proof (len_nonneg w). unfold len in *. cbn [List.length]. rewrite app_length. cbn [List.length]. lia.
  - exists [q], u, (q :: w). auto.
Qed.
Lemma find_iter_parts matcher : (forall s m, matcher s = Some m -> sound_match s m) -> forall fuel s at_ p m, In (p, m) (find_iter matcher fuel at_ s) ->
  exists pre rest, s = pre ++ rest /\ p = at_ + len pre /\ sound_match rest m.
Proof.
  intros Hm. induction fuel as [|fuel IH]; intros s at_ p m I; [destruct I|]. destruct s as [|c s]; [destruct I|]. cbn [find_iter] in I. destruct (matcher (c :: s)) as [m'|] eqn:M.
  - destruct I as [I|I].
    + injection I as <- <-. exists [], (c :: s). split; [reflexivity|]. split; [change (len []) with 0; lia|now apply Hm].
    + apply IH in I as (pre & rest & E & -> & S). destruct (Hm _ _ M) as ((B1 & B2) & _). exists (ztake (g_length m') (c :: s) ++ pre), rest.
      split; [rewrite <- app_assoc, <- E; unfold ztake, zskip; symmetry; apply firstn_skipn|]. split; [|exact S]. rewrite len_app. unfold ztake, len in *. rewrite firstn_length. lia.
  - apply IH in I as (pre & rest & -> & -> & S). exists (c :: pre), rest. split; [reflexivity|]. split; [unfold len; cbn [List.length]; lia|exact S].
Qed.

Theorem C121_sound :
  forall s o b e, In (o, b, e) (handle_data s) -> exists u pre post, s = pre ++ u ++ post /\ b = Z.of_nat (List.length pre) /\ e = b + Z.of_nat (List.length u) /\ embeds u.
Proof.
  intros s o b e I. unfold handle_data in I. apply in_map_iff in I as ([p m] & E & I). injection E as <- <- <-.
  assert (exists pre rest, s = pre ++ rest /\ p = 0 + len pre /\ sound_match rest m) as (pre & rest & -> & -> & _ & pre' & u & post & -> & -> & -> & Em).
  { apply in_app_or in I as [I|I]; [|apply in_app_or in I as [I|I]]; (eapply find_iter_parts; [|exact I]); [apply match_css_parts|apply match_quoted_parts..]. }
  exists u, (pre ++ pre'), post. split; [now rewrite <- app_assoc|]. rewrite app_length. unfold len. split; [lia|]. split; [lia|exact Em].
Qed.
Print Assumptions C121_sound.

(** Not so, wanted: the original URL in the comment is also used for a data URL in quotes. *)
Definition commented : list Z := letters "/*savepage-url=a.png*/url(" ++ 34 :: letters "data:image/png;base64,AAAA" ++ 34 :: letters ")".
Theorem C121_quoted_original_refuted : exists b e, handle_data commented = [(None, b, e)] /\ between commented b e = letters "data:image/png;base64,AAAA".
Proof. exists 27, 53. split; vm_compute; reflexivity. Qed.
Print Assumptions C121_quoted_original_refuted.

Example C121_case :
  let sheet := letters "a{b:/*savepage-url=/x/a.ttf*/url(data:font/ttf;base64,AAEC)} c{background:url(data:;x=1,q) rgb(1,2,3)}" in
  handle_data sheet = places 0 [(letters "a{b:", Some (letters "/x/a.ttf"), letters "data:font/ttf;base64,AAEC"); (letters "} c{background:", None, letters "data:;x=1,q")] /\
  handle_data (34 :: letters "data:,x" ++ 34 :: letters " + " ++ 34 :: letters "y" ++ [34]) = quoted_places 0 [([], letters "data:,x")].
Proof. split; vm_compute; reflexivity. Qed.
