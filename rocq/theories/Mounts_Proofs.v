(** Proofs about setting up and taking down a mount. *)
From Coq Require Import Ascii String.
From Verif Require Import PyBase PyDict PyStr Path_Spec Path_Proofs FileInfo Union_Model Union_Proofs Subvol_Model Multi_Model Multi_Proofs
  Locate_Model Locate_Proofs Overlay_Model Overlay_Spec Overlay_Proofs Overlay_Steps Mounts_Model Mounts_Spec.

Local Open Scope nat_scope.

(** ** Which source answers *)
Section Top.
  Context {U : Type}.
  Notation opened := (opened U).
  Implicit Types (s : opened).

  Lemma look_back_skips path (ms rest : list (nat * source U)) :
    (forall im, In im ms -> s_lookup (snd im) path 0 = None /\ s_versions (snd im) path = 0) ->
    look_back (ms ++ rest) path 0 = look_back rest path 0.
  Proof.
    induction ms as [|[i m] ms IH]; intros H; [reflexivity|]. cbn [app look_back].
    destruct (H (i, m) (or_introl eq_refl)) as [E1 E2]. cbn [snd] in E1, E2. rewrite E1, E2. cbn [Z.of_nat Z.add].
    change (0 <? 0)%Z with false. cbn iota. apply IH. intros im I. apply H. now right.
  Qed.

  Lemma look_back_from path ms i info : look_back ms path 0 = Some (i, info) ->
    exists m : source U, In (i, m) ms /\ s_lookup m path 0 = Some info.
  Proof.
    induction ms as [|[j m] ms IH]; cbn [look_back]; [discriminate|].
    destruct (s_lookup m path 0) as [x|] eqn:E; [intros [= <- <-]; exists m; split; [now left|assumption]|].
    destruct (Z.ltb_spec 0 (0 + Z.of_nat (s_versions m path))) as [L|L]; [discriminate|].
    replace (0 + Z.of_nat (s_versions m path))%Z with 0%Z by lia. intros H. destruct (IH H) as (m' & I & E'). exists m'. split; [now right|assumption].
  Qed.

  Lemma strip_nonempty loc : Forall proper_name loc -> loc <> [] -> strip slash (written loc) <> [].
  Proof. intros P N. rewrite strip_written by assumption. now apply join_nonempty. Qed.

  Lemma united_top (l : list opened) a s b loc info : Forall proper_name loc -> loc <> [] -> l = a ++ s :: b ->
    s_lookup (snd s) (written loc) 0 = Some info -> (forall s', In s' b -> lacks (snd s') loc) ->
    root_lookup (United l) (written loc) 0 = Some (fst s, info).
  Proof.
    intros P N -> E L. cbn [root_lookup]. unfold Union_Model.union_lookup.
    destruct (strip slash (written loc)) as [|c t] eqn:St; [now apply strip_nonempty in St|].
    rewrite chosen_all by reflexivity. change (0 <=? 0)%Z with true. cbn iota.
    rewrite map_app. cbn [map]. rewrite app_length, seq_app, combine_app by now rewrite seq_length. rewrite rev_app_distr.
    cbn [length seq combine rev]. rewrite <- app_assoc. rewrite look_back_skips.
    - cbn [app look_back]. rewrite E. cbn [option_map]. rewrite map_length, Nat.add_0_l. rewrite nth_error_app2, Nat.sub_diag by lia. reflexivity.
    - intros im I. apply in_rev in I. destruct im as [i m]. apply in_combine_r in I. apply in_map_iff in I as (s' & <- & I). exact (L s' I).
  Qed.

  Lemma united_from (l : list opened) loc (s : option str) info : Forall proper_name loc -> loc <> [] ->
    root_lookup (United l) (written loc) 0 = Some (s, info) ->
    exists x, In (s, x) l /\ s_lookup x (written loc) 0 = Some info.
  Proof.
    intros P N. cbn [root_lookup]. unfold Union_Model.union_lookup.
    destruct (strip slash (written loc)) as [|c t] eqn:St; [now apply strip_nonempty in St|].
    rewrite chosen_all by reflexivity. change (0 <=? 0)%Z with true. cbn iota.
    destruct (look_back _ _ _) as [[i x]|] eqn:L; cbn [option_map]; [|discriminate].
    destruct (nth_error l i) as [s'|] eqn:Ni; [|discriminate]. intros [= <- <-].
    apply look_back_from in L as (m & I & E). apply in_rev in I. apply combine_nth_error in I. rewrite nth_error_map in I. change (option_map snd (nth_error l i) = Some m) in I.
    rewrite Ni in I. cbn in I. injection I as <-.
    exists (snd s'). split; [|assumption]. apply nth_error_In in Ni. now destruct s'.
  Qed.

  Lemma compose_top (l : list (str * opened)) r a s b loc info : Forall proper_name loc -> loc <> [] ->
    compose false l = Ok r -> map snd l = a ++ s :: b ->
    s_lookup (snd s) (written loc) 0 = Some info -> (forall s', In s' b -> lacks (snd s') loc) ->
    root_lookup r (written loc) 0 = Some (fst s, info).
  Proof.
    intros P N C M E L. destruct l as [|[k1 x] [|y l]]; [discriminate| |].
    - cbn in C. injection C as <-. destruct a as [|a0 a]; [|destruct a; discriminate]. cbn in M. injection M as <- <-.
      cbn [root_lookup]. now rewrite E.
    - change (compose false ((k1, x) :: y :: l)) with (Ok (United (map snd ((k1, x) :: y :: l)))) in C. injection C as <-.
      eapply united_top; eauto.
  Qed.

  Lemma compose_from (l : list (str * opened)) r loc (s : option str) info : Forall proper_name loc -> loc <> [] ->
    compose false l = Ok r -> root_lookup r (written loc) 0 = Some (s, info) ->
    exists x, In (s, x) (map snd l) /\ s_lookup x (written loc) 0 = Some info.
  Proof.
    intros P N C R. destruct l as [|[k1 x] [|y l]]; [discriminate| |].
    - cbn in C. injection C as <-. cbn [root_lookup] in R. destruct x as [t x]. cbn [fst snd] in R.
      destruct (s_lookup x (written loc) 0) as [i|] eqn:E; [|discriminate]. injection R as <- <-. exists x. split; [now left|assumption].
    - change (compose false ((k1, x) :: y :: l)) with (Ok (United (map snd ((k1, x) :: y :: l)))) in C. injection C as <-.
      eapply united_from; eauto.
  Qed.

  (** ** Opening *)
  Variable realpath : str -> location.
  Variable open_source : str -> res opened.
  Notation open_all := (open_all realpath open_source).

  Lemma open_all_from fs point paths : forall bound l k s, open_all fs point bound paths = Ok l -> In (k, s) l ->
    exists p, In p paths /\ open_source p = Ok s /\ k = base_name p.
  Proof.
    induction paths as [|p r IH]; intros bound l k s H I; cbn [Mounts_Model.open_all] in H.
    { injection H as <-. destruct I. }
    assert (forall b l', open_all fs point b r = Ok l' -> In (k, s) l' -> exists q, In q (p :: r) /\ open_source q = Ok s /\ k = base_name q) as K.
    { intros b l' E J. destruct (IH _ _ _ _ E J) as (q & Q & R). exists q. split; [now right|assumption]. }
    destruct (negb (loc_eqb (realpath p) point)); [|destruct bound; [eauto|]].
    - destruct (open_source p) as [x|] eqn:O; cbn [bind] in H; [|discriminate].
      destruct (open_all fs point bound r) as [l'|] eqn:E; cbn [bind] in H; [|discriminate]. injection H as <-.
      destruct I as [[= <- <-]|I]; [exists p; repeat split; auto; now left|eauto].
    - destruct (open_source p) as [x|] eqn:O; cbn [bind] in H; [|discriminate]. destruct (fget fs point); [|discriminate].
      destruct (open_all fs point true r) as [l'|] eqn:E; cbn [bind] in H; [|discriminate]. injection H as <-.
      destruct I as [[= <- <-]|I]; [exists p; repeat split; auto; now left|eauto].
  Qed.

  Lemma open_all_at fs point before p after s : open_source p = Ok s ->
    forall bound l, open_all fs point bound (before ++ p :: after) = Ok l ->
    realpath p <> point \/ (bound = false /\ forall q, In q before -> realpath q <> point) ->
    exists la lb, l = la ++ (base_name p, s) :: lb /\
      forall k s', In (k, s') lb -> exists q, In q after /\ open_source q = Ok s'.
  Proof.
    intros O. induction before as [|x before IH]; intros bound l H C; cbn [app Mounts_Model.open_all] in H.
    - destruct (loc_eqb_spec (realpath p) point) as [E|N]; cbn [negb] in H.
      + destruct C as [C|[-> _]]; [contradiction|]. rewrite O in H. cbn [bind] in H. destruct (fget fs point); [|discriminate].
        destruct (open_all fs point true after) as [l'|] eqn:E'; cbn [bind] in H; [|discriminate]. injection H as <-.
        exists [], l'. split; [reflexivity|]. intros k' s' I. destruct (open_all_from _ _ _ _ _ _ _ E' I) as (q & Q & R & _). eauto.
      + rewrite O in H. cbn [bind] in H. destruct (open_all fs point bound after) as [l'|] eqn:E'; cbn [bind] in H; [|discriminate]. injection H as <-.
        exists [], l'. split; [reflexivity|]. intros k' s' I. destruct (open_all_from _ _ _ _ _ _ _ E' I) as (q & Q & R & _). eauto.
    - assert (forall b y l', open_all fs point b (before ++ p :: after) = Ok l' ->
               (realpath p <> point \/ (b = false /\ forall q, In q before -> realpath q <> point)) -> l = y :: l' ->
               exists la lb, l = la ++ (base_name p, s) :: lb /\ forall k s', In (k, s') lb -> exists q, In q after /\ open_source q = Ok s') as K.
      { intros b y l' E D ->. destruct (IH b l' E D) as (la & lb & -> & F). exists (y :: la), lb. split; [reflexivity|exact F]. }
      destruct (loc_eqb_spec (realpath x) point) as [E|N]; cbn [negb] in H.
      + assert (realpath p <> point) as Np.
        { destruct C as [C|[_ C]]; [exact C|]. exfalso. exact (C x (or_introl eq_refl) E). }
        destruct bound; [apply (IH true l H); now left|].
        destruct (open_source x) as [y|]; cbn [bind] in H; [|discriminate]. destruct (fget fs point); [|discriminate].
        destruct (open_all fs point true (before ++ p :: after)) as [l'|] eqn:E'; cbn [bind] in H; [|discriminate]. injection H as <-.
        eapply K; [exact E'|now left|reflexivity].
      + destruct (open_source x) as [y|]; cbn [bind] in H; [|discriminate].
        destruct (open_all fs point bound (before ++ p :: after)) as [l'|] eqn:E'; cbn [bind] in H; [|discriminate]. injection H as <-.
        eapply K; [exact E'| |reflexivity]. destruct C as [C|[-> C]]; [now left|right; split; [reflexivity|]]. intros q I. apply C. now right.
  Qed.

  Lemma open_all_ok fs point paths : fget fs point <> None \/ (forall p, In p paths -> realpath p <> point) ->
    (forall p, In p paths -> exists s, open_source p = Ok s) -> forall bound, exists l, open_all fs point bound paths = Ok l.
  Proof.
    intros C. induction paths as [|p r IH]; intros H bound; cbn [Mounts_Model.open_all]; [eauto|].
    destruct (H p (or_introl eq_refl)) as (s & E).
    assert (forall b, exists l, open_all fs point b r = Ok l) as IH'.
    { apply IH; [destruct C as [C|C]; [now left|right; intros q I; apply C; now right]|intros q I; apply H; now right]. }
    destruct (loc_eqb_spec (realpath p) point) as [Ep|N]; cbn [negb].
    - destruct bound; [apply IH'|]. rewrite E. cbn [bind]. destruct (fget fs point) eqn:F.
      + destruct (IH' true) as (l & ->). cbn [bind]. eauto.
      + exfalso. destruct C as [C|C]; [congruence|]. exact (C p (or_introl eq_refl) Ep).
    - rewrite E. cbn [bind]. destruct (IH' bound) as (l & ->). cbn [bind]. eauto.
  Qed.
End Top.

(** ** Folders *)
Lemma fget_fset fs p k x : p <> [] -> fget (fset fs p k) x = if loc_eqb x p then Some k else fget fs x.
Proof.
  intros N. unfold fget, fset. destruct x as [|a x].
  - destruct (loc_eqb_spec [] p) as [<-|]; [congruence|reflexivity].
  - rewrite (dget_dset loc_eqb loc_eqb_spec). reflexivity.
Qed.

Lemma fget_fdel fs p x : p <> [] -> fget (fdel fs p) x = if loc_eqb x p then None else fget fs x.
Proof.
  intros N. unfold fget, fdel. destruct x as [|a x].
  - destruct (loc_eqb_spec [] p) as [<-|]; [congruence|reflexivity].
  - rewrite dget_filter_key. reflexivity.
Qed.

Lemma fget_filter fs t x : t <> [] -> fget (filter (fun e => negb (loc_prefix t (fst e))) fs) x = if loc_prefix t x then None else fget fs x.
Proof.
  intros N. destruct x as [|a x].
  - destruct (loc_prefix_spec t []) as [[r E]|]; [destruct t; [congruence|discriminate]|reflexivity].
  - unfold fget. induction fs as [|[k v] fs IH]; cbn [filter dget fst].
    + now destruct (loc_prefix t (a :: x)).
    + destruct (loc_eqb_spec (a :: x) k) as [<-|Nk].
      * destruct (loc_prefix t (a :: x)) eqn:E; cbn [negb]; [exact IH|]. cbn [dget]. now rewrite loc_eqb_refl.
      * destruct (loc_prefix t k); cbn [negb]; [exact IH|]. cbn [dget]. rewrite loc_eqb_neq by assumption. exact IH.
Qed.

Lemma occupied_false fs p : (forall n, fget fs (p ++ [n]) = None) -> occupied fs p = false.
Proof.
  intros H. unfold occupied. destruct (existsb _ fs) eqn:E; [|reflexivity]. exfalso.
  apply existsb_exists in E as ([k v] & I & J). cbn [fst] in J. destruct (rev k) as [|n r] eqn:R; [discriminate|].
  destruct (loc_eqb_spec p (rev r)) as [Ep|]; [|discriminate]. apply (rev_app_inv k p n r R) in Ep. subst k.
  specialize (H n). unfold fget in H. destruct (p ++ [n]) as [|a x] eqn:Ea; [now apply snoc_nonempty in Ea|].
  apply (dget_None loc_eqb loc_eqb_spec) in H. apply H. apply (in_map fst) in I. exact I.
Qed.

Lemma mkdirs_facts todo : forall fs done fs', mkdirs fs done todo = Ok fs' ->
  forall x, fget fs' x = fget fs x \/
            (fget fs x = None /\ fget fs' x = Some KDir /\ exists a b, todo = a ++ b /\ x = done ++ a /\ a <> []).
Proof.
  induction todo as [|n todo IH]; intros fs done fs' H x; cbn [mkdirs] in H.
  - injection H as <-. now left.
  - destruct (fget fs (done ++ [n])) as [[|]|] eqn:E; [|discriminate|].
    + destruct (IH _ _ _ H x) as [K|(K1 & K2 & a & b & -> & -> & N)]; [now left|]. right. split; [|split]; auto.
      exists (n :: a), b. split; [reflexivity|]. split; [now rewrite <- app_assoc|discriminate].
    + destruct (IH _ _ _ H x) as [K|(K1 & K2 & a & b & -> & Ex & N)].
      * rewrite fget_fset in K by apply snoc_nonempty. destruct (loc_eqb_spec x (done ++ [n])) as [Ex|]; [|now left]. subst x. right. split; [|split]; auto.
        exists [n], todo. repeat split; auto. discriminate.
      * rewrite fget_fset in K1 by apply snoc_nonempty. destruct (loc_eqb_spec x (done ++ [n])); [discriminate|]. subst x. right. split; [|split]; auto.
        exists (n :: a), b. split; [reflexivity|]. split; [now rewrite <- app_assoc|discriminate].
Qed.

Lemma mkdirs_makes todo : forall fs done fs', mkdirs fs done todo = Ok fs' -> fget fs done = Some KDir -> fget fs' (done ++ todo) = Some KDir.
Proof.
  induction todo as [|n todo IH]; intros fs done fs' H D; cbn [mkdirs] in H.
  - injection H as <-. now rewrite app_nil_r.
  - change (n :: todo) with ([n] ++ todo). rewrite app_assoc.
    destruct (fget fs (done ++ [n])) as [[|]|] eqn:E; [|discriminate|]; apply (IH _ _ _ H); auto.
    rewrite fget_fset by apply snoc_nonempty. now rewrite loc_eqb_refl.
Qed.

Lemma fset_in_folders fs p n k : in_folders fs -> fget fs p = Some KDir -> fget fs (p ++ [n]) = None -> in_folders (fset fs (p ++ [n]) k).
Proof.
  intros F D E q m H. rewrite fget_fset in * by apply snoc_nonempty.
  destruct (loc_eqb_spec (q ++ [m]) (p ++ [n])) as [Eq|N].
  - apply app_inj_tail in Eq as [-> ->]. destruct (loc_eqb_spec p (p ++ [n])) as [Ep|]; [|exact D].
    exfalso. apply (f_equal (@length _)) in Ep. rewrite app_length in Ep. cbn in Ep. lia.
  - pose proof (F q m H) as K. destruct (loc_eqb_spec q (p ++ [n])) as [->|]; [congruence|exact K].
Qed.

Lemma mkdirs_in_folders todo : forall fs done fs', mkdirs fs done todo = Ok fs' -> in_folders fs -> fget fs done = Some KDir -> in_folders fs'.
Proof.
  induction todo as [|n todo IH]; intros fs done fs' H F D; cbn [mkdirs] in H; [now injection H as <-|].
  destruct (fget fs (done ++ [n])) as [[|]|] eqn:E; [|discriminate|].
  - exact (IH _ _ _ H F E).
  - apply (IH _ _ _ H); [now apply fset_in_folders|]. rewrite fget_fset by apply snoc_nonempty. now rewrite loc_eqb_refl.
Qed.

Lemma below_missing fs p : in_folders fs -> fget fs p = None -> forall r, fget fs (p ++ r) = None.
Proof.
  intros F E r. induction r as [|n r IH] using rev_ind; [now rewrite app_nil_r|]. rewrite app_assoc.
  destruct (fget fs ((p ++ r) ++ [n])) eqn:K; [|reflexivity]. exfalso.
  assert (fget fs ((p ++ r) ++ [n]) <> None) as K' by congruence. apply F in K'. congruence.
Qed.

(** ** The constructor *)
Section Init.
  Context {U : Type}.
  Variable realpath : str -> location.
  Variable open_source : str -> res (opened U).
  Variables control_layer no_subvolumes : source U.
  Variable temporary : location.
  Notation init := (init realpath open_source control_layer no_subvolumes temporary).

  Lemma kept_spec fs x : kept realpath fs x = true <-> given realpath fs x.
  Proof.
    unfold kept, given. destruct (fget fs (realpath x)); [split; [left; discriminate|reflexivity]|].
    rewrite Locate_Proofs.contains_spec. split; [now right|]. intros [H|H]; [congruence|exact H].
  Qed.

  Lemma init_ok fs q r rest : init fs q = (Ok r, rest) ->
    exists fs1 overlay temp l fs2 fs3 made,
      prepare_overlay realpath temporary fs (q_overlay q) = Ok (fs1, overlay, temp) /\
      open_all realpath open_source fs1 (realpath (q_point q)) false
        (filter (kept realpath fs) (q_inputs q) ++ match overlay with Some p => [written p] | None => [] end) = Ok l /\
      prepare_log realpath fs1 (q_log q) = Ok fs2 /\
      finish fs2 q (realpath (q_point q)) overlay (with_control_layer control_layer no_subvolumes (q_control q) l) = Ok (r, fs3, made) /\
      rest = (fs3, mkHeld temp (if made then Some (realpath (q_point q)) else None)) /\
      fget fs (realpath (q_point q)) <> Some KFile.
  Proof.
    unfold Mounts_Model.init. cbv zeta.
    set (inputs := q_inputs q). set (paths := filter (kept realpath fs) inputs).
    assert (forall X, X = (Ok r, rest) ->
      X = (match prepare_overlay realpath temporary fs (q_overlay q) with
            | Err e => (Err e, (fs, mkHeld None None))
            | Ok (fs1, overlay, temp) =>
                match open_all realpath open_source fs1 (realpath (q_point q)) false (paths ++ match overlay with Some p => [written p] | None => [] end) with
                | Err e => (Err e, (fs1, mkHeld temp None))
                | Ok l =>
                    match prepare_log realpath fs1 (q_log q) with
                    | Err e => (Err e, (fs1, mkHeld temp None))
                    | Ok fs2 =>
                        match finish fs2 q (realpath (q_point q)) overlay (with_control_layer control_layer no_subvolumes (q_control q) l) with
                        | Err e => (Err e, (fs2, mkHeld temp None))
                        | Ok (r, fs3, made) => (Ok r, (fs3, mkHeld temp (if made then Some (realpath (q_point q)) else None)))
                        end
                    end
                end
            end) -> fget fs (realpath (q_point q)) <> Some KFile ->
      exists fs1 overlay temp l fs2 fs3 made,
      prepare_overlay realpath temporary fs (q_overlay q) = Ok (fs1, overlay, temp) /\
      open_all realpath open_source fs1 (realpath (q_point q)) false (paths ++ match overlay with Some p => [written p] | None => [] end) = Ok l /\
      prepare_log realpath fs1 (q_log q) = Ok fs2 /\
      finish fs2 q (realpath (q_point q)) overlay (with_control_layer control_layer no_subvolumes (q_control q) l) = Ok (r, fs3, made) /\
      rest = (fs3, mkHeld temp (if made then Some (realpath (q_point q)) else None)) /\
      fget fs (realpath (q_point q)) <> Some KFile) as K.
    { intros X -> E Nf. symmetry in E. destruct (prepare_overlay _ _ _ _) as [[[fs1 ov] temp]|]; [|discriminate].
      destruct (open_all _ _ _ _ _ _) as [l|] eqn:O; [|discriminate].
      destruct (prepare_log _ _ _) as [fs2|] eqn:L; [|discriminate].
      destruct (finish _ _ _ _ _) as [[[r' fs3] made]|] eqn:F; [|discriminate]. injection E as -> <-.
      exists fs1, ov, temp, l, fs2, fs3, made. repeat split; auto. }
    destruct (fget fs (realpath (q_point q))) as [[|]|] eqn:P; [| discriminate |];
      (destruct inputs as [|i0 inputs'] eqn:Ei; [|destruct paths as [|p0 paths'] eqn:Ep; [discriminate|]]);
      intros H; apply (K _ H eq_refl); congruence.
  Qed.

  Lemma finish_ok fs q point overlay (l : list (str * opened U)) r fs3 made : finish fs q point overlay l = Ok (r, fs3, made) ->
    compose (q_side_by_side q) l = Ok r /\
    (forall p, overlay = Some p -> open_overlay fs r p = Ok tt) /\
    (made = false /\ fs3 = fs /\ fget fs point <> None \/ made = true /\ fget fs point = None /\ make_folder fs point = Ok fs3).
  Proof.
    unfold finish. destruct (compose (q_side_by_side q) l) as [r'|]; [|discriminate].
    destruct (match overlay with None => Ok tt | Some p => open_overlay fs r' p end) as [[]|] eqn:O; [|discriminate].
    destruct (fget fs point) eqn:P.
    - intros [= <- <- <-]. split; [reflexivity|]. split; [intros p ->; exact O|]. left. repeat split; congruence.
    - destruct (make_folder fs point) as [fs'|]; [|discriminate]. intros [= <- <- <-]. split; [reflexivity|]. split; [intros p ->; exact O|].
      right. auto.
  Qed.

  Lemma prepare_overlay_at fs o fs1 overlay temp : prepare_overlay realpath temporary fs o = Ok (fs1, overlay, temp) ->
    (o = [] /\ overlay = None) \/ exists p, overlay = Some p /\ overlay_at realpath temporary o p.
  Proof.
    unfold prepare_overlay, overlay_at. destruct (str_eqb_spec o []) as [->|N]; [intros [= <- <- <-]; now left|].
    destruct (str_eqb_spec o $":temp:") as [->|Nt]; [intros [= <- <- <-]; right; eauto|].
    cbv zeta. destruct (fget fs (realpath o)).
    - intros [= <- <- <-]. right. exists (realpath o). auto.
    - destruct (mkdirs fs [] (realpath o)); cbn [bind]; [|discriminate]. intros [= <- <- <-]. right. exists (realpath o). auto.
  Qed.

  Lemma overlay_at_fun o p p' : overlay_at realpath temporary o p -> overlay_at realpath temporary o p' -> p = p'.
  Proof. intros [[-> ->]|(N1 & N2 & ->)] [[E ->]|(N3 & N4 & ->)]; congruence. Qed.

  Lemma with_control_in control l k s : In (k, s) (with_control_layer control_layer no_subvolumes control l) ->
    In (k, s) l \/ (control = true /\ (s = (None, control_layer) \/ l = [] /\ s = (None, no_subvolumes))).
  Proof.
    unfold with_control_layer. destruct control; [|now left]. rewrite in_app_iff. destruct l as [|x l].
    - intros [[[= <- <-]|[]]|[[= <- <-]|[]]]; right; auto.
    - intros [I|[[= <- <-]|[]]]; [now left|right; auto].
  Qed.

  Lemma with_control_split control la e lb :
    with_control_layer control_layer no_subvolumes control (la ++ e :: lb) = la ++ e :: lb ++ (if control then [($"/", (None, control_layer))] else []).
  Proof.
    unfold with_control_layer. destruct control; [|now rewrite app_nil_r]. destruct la as [|x la]; [reflexivity|].
    cbn [app]. now rewrite <- app_assoc.
  Qed.

  Lemma filter_split (f : str -> bool) before p after : f p = true -> filter f (before ++ p :: after) = filter f before ++ p :: filter f after.
  Proof. intros H. rewrite filter_app. cbn [filter]. now rewrite H. Qed.

  Lemma later_wins fs q r rest before p after s loc info : Forall proper_name loc -> loc <> [] ->
    init fs q = (Ok r, rest) -> q_side_by_side q = false ->
    q_inputs q = before ++ p :: after -> given realpath fs p ->
    realpath p <> realpath (q_point q) \/ (forall x, In x before -> realpath x <> realpath (q_point q)) ->
    open_source p = Ok s -> s_lookup (snd s) (written loc) 0 = Some info ->
    (forall x s', In x after -> given realpath fs x -> open_source x = Ok s' -> lacks (snd s') loc) ->
    (forall o s', overlay_at realpath temporary (q_overlay q) o -> open_source (written o) = Ok s' -> lacks (snd s') loc) ->
    (q_control q = true -> lacks control_layer loc) ->
    root_lookup r (written loc) 0 = Some (fst s, info).
  Proof.
    intros P N H Sb Ei G C O L La Lo Lc. destruct (init_ok _ _ _ _ H) as (fs1 & ov & temp & l & fs2 & fs3 & made & H1 & H2 & _ & H4 & _).
    apply finish_ok in H4 as (H4 & _). rewrite Sb in H4. rewrite Ei, filter_split in H2 by now apply kept_spec.
    rewrite <- app_assoc in H2. cbn [app] in H2.
    destruct (open_all_at realpath open_source _ _ _ _ _ _ O _ _ H2) as (la & lb & -> & F).
    { destruct C as [C|C]; [now left|right; split; [reflexivity|]]. intros x I. apply filter_In in I as [I _]. now apply C. }
    rewrite with_control_split in H4.
    apply (compose_top _ _ (map snd la) s (map snd (lb ++ (if q_control q then [($"/", (None, control_layer))] else []))) _ _ P N H4).
    - rewrite map_app. reflexivity.
    - exact L.
    - intros s' I. apply in_map_iff in I as ([k s''] & <- & I). cbn [snd]. apply in_app_iff in I as [I|I].
      + destruct (F _ _ I) as (x & Ix & Ox). apply in_app_iff in Ix as [Ix|Ix].
        * apply filter_In in Ix as [Ix K]. apply kept_spec in K. exact (La x s'' Ix K Ox).
        * destruct (prepare_overlay_at _ _ _ _ _ H1) as [[_ ->]|(o & -> & Ho)]; [destruct Ix|]. destruct Ix as [<-|[]]. exact (Lo o s'' Ho Ox).
      + destruct (q_control q); [|destruct I]. destruct I as [[= <- <-]|[]]. cbn [snd]. now apply Lc.
  Qed.

  Lemma overlay_wins fs q r rest o s loc info : Forall proper_name loc -> loc <> [] -> resolves realpath temporary ->
    init fs q = (Ok r, rest) -> q_side_by_side q = false -> overlay_at realpath temporary (q_overlay q) o ->
    o <> realpath (q_point q) \/ (forall x, In x (q_inputs q) -> realpath x <> realpath (q_point q)) ->
    open_source (written o) = Ok s -> s_lookup (snd s) (written loc) 0 = Some info ->
    (q_control q = true -> lacks control_layer loc) ->
    root_lookup r (written loc) 0 = Some (fst s, info).
  Proof.
    intros P N [R1 R2] H Sb A C O L Lc. destruct (init_ok _ _ _ _ H) as (fs1 & ov & temp & l & fs2 & fs3 & made & H1 & H2 & _ & H4 & _).
    apply finish_ok in H4 as (H4 & _). rewrite Sb in H4.
    destruct (prepare_overlay_at _ _ _ _ _ H1) as [[E ->]|(o' & -> & A')].
    { destruct A as [[A _]|(A & _)]; rewrite E in A; [discriminate A|congruence]. }
    rewrite (overlay_at_fun _ _ _ A' A) in H2.
    assert (realpath (written o) = o) as Ro by (destruct A as [[_ ->]|(_ & _ & ->)]; auto).
    destruct (open_all_at realpath open_source _ _ _ _ _ _ O _ _ H2) as (la & lb & -> & F).
    { rewrite Ro. destruct C as [C|C]; [now left|right; split; [reflexivity|]]. intros x I. apply filter_In in I as [I _]. now apply C. }
    rewrite with_control_split in H4.
    apply (compose_top _ _ (map snd la) s (map snd (lb ++ (if q_control q then [($"/", (None, control_layer))] else []))) _ _ P N H4).
    - rewrite map_app. reflexivity.
    - exact L.
    - intros s' I. apply in_map_iff in I as ([k s''] & <- & I). cbn [snd]. apply in_app_iff in I as [I|I].
      + destruct (F _ _ I) as (x & [] & _).
      + destruct (q_control q); [|destruct I]. destruct I as [[= <- <-]|[]]. cbn [snd]. now apply Lc.
  Qed.

  Lemma control_wins fs q r rest loc info : Forall proper_name loc -> loc <> [] ->
    init fs q = (Ok r, rest) -> q_side_by_side q = false -> q_control q = true ->
    s_lookup control_layer (written loc) 0 = Some info -> root_lookup r (written loc) 0 = Some (None, info).
  Proof.
    intros P N H Sb Ct L. destruct (init_ok _ _ _ _ H) as (fs1 & ov & temp & l & fs2 & fs3 & made & _ & _ & _ & H4 & _).
    apply finish_ok in H4 as (H4 & _). rewrite Sb, Ct in H4. unfold with_control_layer in H4.
    eapply (compose_top _ _ _ (None, control_layer) [] _ _ P N H4); [|exact L|intros s' []].
    rewrite map_app. reflexivity.
  Qed.

  Lemma shown_from fs q r rest loc t info : Forall proper_name loc -> loc <> [] ->
    init fs q = (Ok r, rest) -> q_side_by_side q = false -> root_lookup r (written loc) 0 = Some (t, info) ->
    exists s, s_lookup s (written loc) 0 = Some info /\
      ((exists x, In x (q_inputs q) /\ given realpath fs x /\ open_source x = Ok (t, s)) \/
       (exists o, overlay_at realpath temporary (q_overlay q) o /\ open_source (written o) = Ok (t, s)) \/
       (q_control q = true /\ t = None /\ (s = control_layer \/ s = no_subvolumes))).
  Proof.
    intros P N H Sb L. destruct (init_ok _ _ _ _ H) as (fs1 & ov & temp & l & fs2 & fs3 & made & H1 & H2 & _ & H4 & _).
    apply finish_ok in H4 as (H4 & _). rewrite Sb in H4.
    destruct (compose_from _ _ _ _ _ P N H4 L) as (s & I & E). exists s. split; [exact E|].
    apply in_map_iff in I as ([k x] & Ex & I). cbn [snd] in Ex. subst x. apply with_control_in in I as [I|(Ct & [[= -> ->]|[_ [= -> ->]]])]; [|right; right; auto|right; right; auto].
    destruct (open_all_from _ _ _ _ _ _ _ _ _ H2 I) as (x & Ix & Ox & _). apply in_app_iff in Ix as [Ix|Ix].
    - apply filter_In in Ix as [Ix K]. apply kept_spec in K. left. eauto.
    - right. left. destruct (prepare_overlay_at _ _ _ _ _ H1) as [[_ ->]|(o & -> & A)]; [destruct Ix|]. destruct Ix as [<-|[]]. eauto.
  Qed.
End Init.

(** ** What is left behind *)
Section Trace.
  Context {U : Type}.
  Variable realpath : str -> location.
  Variable open_source : str -> res (opened U).
  Variables control_layer no_subvolumes : source U.
  Variable temporary : location.
  Notation init := (init realpath open_source control_layer no_subvolumes temporary).

  (** Only what was asked for was added. *)
  Definition added (q : request) (fs fs' : folders) : Prop :=
    in_folders fs' /\ forall x, fget fs' x = fget fs x \/ (fget fs x = None /\ asked_for realpath q x).

  Lemma added_refl q fs : in_folders fs -> added q fs fs.
  Proof. intros F. split; [exact F|]. now left. Qed.

  Lemma fget_root fs : fget fs [] = Some KDir.
  Proof. reflexivity. Qed.

  Lemma split_last (p : location) : p <> [] -> exists l n, p = l ++ [n] /\ removelast p = l.
  Proof. intros N. destruct (exists_last N) as (l & n & ->). exists l, n. split; [reflexivity|apply removelast_last]. Qed.

  Lemma below_refl (p : location) : at_or_below p p.
  Proof. exists []. now rewrite app_nil_r. Qed.

  Lemma log_added fs q fs' : in_folders fs -> prepare_log realpath fs (q_log q) = Ok fs' -> added q fs fs'.
  Proof.
    intros F. unfold prepare_log. destruct (str_eqb_spec (q_log q) []) as [E|N]; [intros [= <-]; now apply added_refl|].
    cbv zeta. destruct (mkdirs fs [] (removelast (realpath (q_log q)))) as [fs1|] eqn:M; cbn [bind]; [|discriminate].
    pose proof (mkdirs_in_folders _ _ _ _ M F (fget_root fs)) as F1. pose proof (mkdirs_facts _ _ _ _ M) as X.
    assert (forall x, fget fs1 x = fget fs x \/ (fget fs x = None /\ asked_for realpath q x)) as X1.
    { intros x. destruct (X x) as [K|(K1 & K2 & a & b & E & Ex & Na)]; [now left|]. right. split; [exact K1|]. right. split; [exact N|].
      cbn [app] in Ex. subst x. destruct (realpath (q_log q)) as [|y z] eqn:Er; [cbn in E; destruct a; [congruence|discriminate]|].
      destruct (split_last (y :: z)) as (l & n & E1 & E2); [discriminate|]. rewrite E2 in E. rewrite E1. exists (b ++ [n]).
      rewrite app_assoc. now rewrite <- E. }
    unfold make_file. destruct (fget fs1 (realpath (q_log q))) as [[|]|] eqn:G; [discriminate|intros [= <-]; now split|].
    destruct (fget fs1 (removelast (realpath (q_log q)))) as [[|]|] eqn:D; [|discriminate|discriminate]. intros [= <-].
    destruct (realpath (q_log q)) as [|y z] eqn:Er; [discriminate|]. rewrite <- Er in *.
    destruct (split_last (realpath (q_log q))) as (l & n & E1 & E2); [congruence|]. rewrite E2 in D. split.
    - rewrite E1 in *. now apply fset_in_folders.
    - intros x. rewrite fget_fset by congruence. destruct (loc_eqb_spec x (realpath (q_log q))) as [->|]; [|apply X1].
      right. split.
      + destruct (X1 (realpath (q_log q))) as [K|[K _]]; congruence.
      + right. split; [exact N|apply below_refl].
  Qed.

  Lemma added_trans q a b c : added q a b -> added q b c -> added q a c.
  Proof.
    intros [_ X] [F Y]. split; [exact F|]. intros x. destruct (Y x) as [->|[K A]]; [apply X|].
    right. split; [|exact A]. destruct (X x) as [E|[E _]]; congruence.
  Qed.

  (** The temporary folder, if it is used. *)
  Lemma overlay_added fs q fs1 ov temp : in_folders fs -> fresh_temporary realpath fs q temporary ->
    prepare_overlay realpath temporary fs (q_overlay q) = Ok (fs1, ov, temp) ->
    (temp = None /\ added q fs fs1 /\ q_overlay q <> $":temp:") \/
    (temp = Some temporary /\ q_overlay q = $":temp:" /\ in_folders fs1 /\ forall x, fget fs1 x = if loc_eqb x temporary then Some KDir else fget fs x).
  Proof.
    intros F (T1 & T2 & T3 & _). unfold prepare_overlay. destruct (str_eqb_spec (q_overlay q) []) as [E|N].
    { intros [= <- <- <-]. left. split; [reflexivity|]. split; [now apply added_refl|]. rewrite E. discriminate. }
    destruct (str_eqb_spec (q_overlay q) $":temp:") as [E|Nt].
    { intros [= <- <- <-]. right. split; [reflexivity|]. split; [exact E|]. split; [|intros x; now apply fget_fset].
      destruct (split_last temporary T1) as (l & n & E1 & E2). rewrite E2 in T3. rewrite E1 in *. now apply fset_in_folders. }
    cbv zeta. destruct (fget fs (realpath (q_overlay q))) eqn:G.
    { intros [= <- <- <-]. left. split; [reflexivity|]. split; [now apply added_refl|exact Nt]. }
    destruct (mkdirs fs [] (realpath (q_overlay q))) as [fs'|] eqn:M; cbn [bind]; [|discriminate]. intros [= <- <- <-].
    left. split; [reflexivity|]. split; [|exact Nt]. split; [exact (mkdirs_in_folders _ _ _ _ M F (fget_root fs))|].
    intros x. destruct (mkdirs_facts _ _ _ _ M x) as [K|(K1 & K2 & a & b & E & Ex & Na)]; [now left|]. right. split; [exact K1|].
    left. split; [exact N|]. split; [exact Nt|]. cbn [app] in Ex. subst x. now exists b.
  Qed.

  (** What the constructor did, however it ended. *)
  Definition started (fs : folders) (q : request) (fs1 : folders) (h : held) : Prop :=
    exists fs2,
      (h_temporary h = None /\ q_overlay q <> $":temp:" /\ added q fs fs2 \/
       h_temporary h = None /\ fs2 = fs /\ fs1 = fs /\ h_created h = None \/
       h_temporary h = Some temporary /\ q_overlay q = $":temp:" /\ in_folders fs2 /\ fget fs2 temporary = Some KDir /\
         forall x, x <> temporary -> fget fs2 x = fget fs x \/ (fget fs x = None /\ asked_for realpath q x)) /\
      (h_created h = None /\ fs1 = fs2 \/
       h_created h = Some (realpath (q_point q)) /\ fget fs2 (realpath (q_point q)) = None /\
         make_folder fs2 (realpath (q_point q)) = Ok fs1).

  Lemma init_started fs q res fs1 h : in_folders fs -> fresh_temporary realpath fs q temporary ->
    init fs q = (res, (fs1, h)) -> started fs q fs1 h.
  Proof.
    intros F T. unfold Mounts_Model.init. cbv zeta.
    assert (started fs q fs (mkHeld None None)) as S0.
    { exists fs. split; [right; left; auto|left; auto]. }
    assert (forall X, X = (res, (fs1, h)) ->
      X = (match prepare_overlay realpath temporary fs (q_overlay q) with
            | Err e => (Err e, (fs, mkHeld None None))
            | Ok (fs1, overlay, temp) =>
                match open_all realpath open_source fs1 (realpath (q_point q)) false (filter (kept realpath fs) (q_inputs q) ++ match overlay with Some p => [written p] | None => [] end) with
                | Err e => (Err e, (fs1, mkHeld temp None))
                | Ok l =>
                    match prepare_log realpath fs1 (q_log q) with
                    | Err e => (Err e, (fs1, mkHeld temp None))
                    | Ok fs2 =>
                        match finish fs2 q (realpath (q_point q)) overlay (with_control_layer control_layer no_subvolumes (q_control q) l) with
                        | Err e => (Err e, (fs2, mkHeld temp None))
                        | Ok (r, fs3, made) => (Ok r, (fs3, mkHeld temp (if made then Some (realpath (q_point q)) else None)))
                        end
                    end
                end
            end) -> started fs q fs1 h) as K.
    { intros X -> E. symmetry in E. destruct (prepare_overlay _ _ _ _) as [[[fsa ov] temp]|] eqn:P; [|now injection E as _ <- <-].
      pose proof (overlay_added _ _ _ _ _ F T P) as A.
      assert (forall fsb, added q fsa fsb ->
        (temp = None /\ q_overlay q <> $":temp:" /\ added q fs fsb \/
         temp = Some temporary /\ q_overlay q = $":temp:" /\ in_folders fsb /\ fget fsb temporary = Some KDir /\
         forall x, x <> temporary -> fget fsb x = fget fs x \/ (fget fs x = None /\ asked_for realpath q x))) as A2.
      { intros fsb B. destruct A as [(-> & A & Nt)|(-> & Et & Fa & A)].
        - left. split; [reflexivity|]. split; [exact Nt|]. exact (added_trans _ _ _ _ A B).
        - right. split; [reflexivity|]. split; [exact Et|]. destruct B as [Fb B]. split; [exact Fb|]. split.
          + destruct (B temporary) as [->|[K _]]; [now rewrite A, loc_eqb_refl|]. rewrite A, loc_eqb_refl in K. discriminate.
          + intros x Nx. specialize (B x). rewrite (A x), (loc_eqb_neq x temporary Nx) in B. exact B. }
      assert (in_folders fsa) as Fa by (destruct A as [(_ & [Fa _] & _)|(_ & _ & Fa & _)]; exact Fa).
      assert (forall fsb c, added q fsa fsb ->
        (c = None /\ fs1 = fsb \/ c = Some (realpath (q_point q)) /\ fget fsb (realpath (q_point q)) = None /\ make_folder fsb (realpath (q_point q)) = Ok fs1) ->
        h = mkHeld temp c -> started fs q fs1 h) as A3.
      { intros fsb c B D ->. exists fsb. split; [|exact D]. cbn [h_temporary h_created]. destruct (A2 fsb B) as [A'|A']; [left; exact A'|right; right; exact A']. }
      destruct (open_all _ _ _ _ _ _) as [l|] eqn:O.
      2:{ injection E as _ <- <-. apply (A3 fsa None); [now apply added_refl|left; auto|reflexivity]. }
      destruct (prepare_log _ _ _) as [fsb|] eqn:L.
      2:{ injection E as _ <- <-. apply (A3 fsa None); [now apply added_refl|left; auto|reflexivity]. }
      pose proof (log_added _ _ _ Fa L) as B.
      destruct (finish _ _ _ _ _) as [[[r' fs3] made]|] eqn:Fi.
      - injection E as <- <- <-. apply (A3 fsb (if made then Some (realpath (q_point q)) else None) B); [|reflexivity]. apply finish_ok in Fi as (_ & _ & [(-> & -> & _)|(-> & G & M)]); [now left|right; auto].
      - injection E as _ <- <-. apply (A3 fsb None B); [now left|reflexivity]. }
    destruct (fget fs (realpath (q_point q))) as [[|]|]; [| intros [= _ <- <-]; exact S0 |];
      (destruct (q_inputs q) as [|i0 inputs'] eqn:Ei; [|destruct (filter (kept realpath fs) (i0 :: inputs')) as [|p0 paths'] eqn:Ep; [intros [= _ <- <-]; exact S0|]]);
      intros H; apply (K _ H eq_refl).
  Qed.

  Lemma classic_overlay o x : (exists p, overlay_at realpath temporary o p /\ at_or_below p x) \/ (forall p, overlay_at realpath temporary o p -> ~ at_or_below p x).
  Proof.
    destruct (list_eq_dec ascii_dec o $":temp:") as [->|Nt].
    - destruct (loc_prefix_spec temporary x) as [B|B]; [left; exists temporary; split; [left; auto|exact B]|].
      right. intros p [[_ ->]|(_ & K & _)]; [exact B|congruence].
    - destruct (list_eq_dec ascii_dec o []) as [->|Ne].
      + right. intros p [[K _]|(K & _)]; congruence.
      + destruct (loc_prefix_spec (realpath o) x) as [B|B]; [left; exists (realpath o); split; [right; auto|exact B]|].
        right. intros p [[K _]|(_ & _ & ->)]; [congruence|exact B].
  Qed.

  Lemma nothing_left fs q res fs1 h fs1' : in_folders fs -> fresh_temporary realpath fs q temporary ->
    init fs q = (res, (fs1, h)) ->
    (forall x, fget fs1' x = fget fs1 x \/
       (exists r, res = Ok r) /\ exists p, overlay_at realpath temporary (q_overlay q) p /\ at_or_below p x /\ x <> p) ->
    forall x, fget (close fs1' h) x = fget fs x \/
      (fget fs x = None /\ asked_for realpath q x) \/
      (q_overlay q <> $":temp:" /\ exists p, overlay_at realpath temporary (q_overlay q) p /\ at_or_below p x /\ x <> p).
  Proof.
    intros F T H B x. destruct (init_started _ _ _ _ _ F T H) as (fs2 & A & C). destruct T as (T1 & T2 & T3 & T4 & T5 & T6).
    (* the temporary folder *)
    set (fsc := match h_temporary h with None => fs1' | Some t => filter (fun e => negb (loc_prefix t (fst e))) fs1' end).
    assert (h_created h = None \/ h_created h = Some (realpath (q_point q))) as Ch by (destruct C as [[-> _]|[-> _]]; auto).
    (* fs2, without the temporary folder, is the old state with what was asked for *)
    assert (forall y, (h_temporary h = Some temporary -> ~ at_or_below temporary y) ->
              fget fs2 y = fget fs y \/ (fget fs y = None /\ asked_for realpath q y)) as G2.
    { intros y Ny. destruct A as [(_ & _ & _ & A)|[(_ & -> & _)|(Ht & _ & _ & _ & A)]]; [apply A|now left|].
      apply A. intros ->. apply (Ny Ht). apply below_refl. }
    assert (forall y, (h_created h = None \/ y <> realpath (q_point q)) -> fget fs1 y = fget fs2 y) as G1.
    { intros y Ny. destruct C as [[_ ->]|(Ec & Gn & M)]; [reflexivity|]. unfold make_folder in M.
      destruct (fget fs2 (removelast (realpath (q_point q)))) as [[|]|]; try discriminate.
      injection M as <-. assert (y <> realpath (q_point q)) as Ny' by (destruct Ny as [Ny|Ny]; congruence).
      rewrite fget_fset, loc_eqb_neq; [reflexivity|exact Ny'|]. intros E. rewrite E in Gn. discriminate. }
    (* the same for what is left after removing it, except for the mount point and what is in the overlay *)
    assert (forall y, (h_created h = None \/ y <> realpath (q_point q)) ->
              fget fsc y = fget fs y \/ (fget fs y = None /\ asked_for realpath q y) \/
              (q_overlay q <> $":temp:" /\ exists p, overlay_at realpath temporary (q_overlay q) p /\ at_or_below p y /\ y <> p)) as G.
    { intros y Ny. unfold fsc. destruct (h_temporary h) as [t|] eqn:Ht.
      - assert (t = temporary /\ q_overlay q = $":temp:") as [-> Et].
        { destruct A as [(D & _)|[(D & _)|(D & E & _)]]; [discriminate|discriminate|]. injection D as ->. auto. }
        rewrite fget_filter by exact T1. destruct (loc_prefix_spec temporary y) as [[r Er]|Nb].
        + left. subst y. symmetry. now apply below_missing.
        + destruct (B y) as [->|(_ & p & [[_ ->]|(_ & Np & _)] & Bp & _)]; [|contradiction|congruence].
          assert (fget fs1 y = fget fs2 y) as ->.
          { apply G1. destruct C as [[Ec _]|(Ec & _)]; [now left|]. destruct Ny as [Ny|Ny]; [congruence|now right]. }
          destruct (G2 y) as [K|K]; [now intros _|now left|right; now left].
      - destruct (B y) as [->|([r Hr] & p & Hp & Bp & Nyp)].
        + assert (fget fs1 y = fget fs2 y) as ->.
          { apply G1. destruct C as [[Ec _]|(Ec & _)]; [now left|]. destruct Ny as [Ny|Ny]; [congruence|now right]. }
          destruct (G2 y) as [K|K]; [discriminate|now left|right; now left].
        + destruct A as [(_ & Nt & _)|[(_ & -> & -> & Hc)|(D & _)]]; [right; right; split; [exact Nt|eauto] | |discriminate].
          destruct (list_eq_dec ascii_dec (q_overlay q) $":temp:") as [Et|Nt]; [|right; right; split; [exact Nt|eauto]].
          exfalso. subst res. destruct (init_ok _ _ _ _ _ _ _ _ _ H) as (fsa & ov & temp & l & fsb & fs3 & made & P & _ & _ & _ & Er & _).
          unfold prepare_overlay in P. rewrite Et in P. cbn in P. injection P as _ _ <-. injection Er as _ Eh. subst h. discriminate. }
    unfold close. change (match h_temporary h with None => fs1' | Some t => filter (fun e => negb (loc_prefix t (fst e))) fs1' end) with fsc.
    destruct C as [[Ec _]|(Ec & Np & M)].
    { rewrite Ec. apply G. now left. }
    rewrite Ec. assert (realpath (q_point q) <> []) as Pn by (intros E; rewrite E in Np; discriminate).
    destruct (loc_eqb_spec x (realpath (q_point q))) as [->|Nx].
    2:{ destruct (occupied fsc (realpath (q_point q))); [|rewrite fget_fdel, loc_eqb_neq by assumption]; apply G; now right. }
    assert (fget fs (realpath (q_point q)) = None) as N0.
    { destruct (G2 (realpath (q_point q))) as [K|[K _]]; [now intros _|congruence|exact K]. }
    destruct (classic_overlay (q_overlay q) (realpath (q_point q))) as [(p & Hp & Bp)|No].
    - (* the mount point lies in the overlay folder *)
      destruct (loc_eqb_spec (realpath (q_point q)) p) as [E|Ne].
      + right. left. split; [exact N0|]. left. destruct Hp as [[_ ->]|(K1 & K2 & ->)]; [contradiction|]. split; [exact K1|]. split; [exact K2|rewrite E; apply below_refl].
      + destruct (list_eq_dec ascii_dec (q_overlay q) $":temp:") as [Et|Nt]; [|right; right; split; [exact Nt|eauto]].
        exfalso. destruct Hp as [[_ ->]|(_ & K & _)]; [contradiction|congruence].
    - assert (occupied fsc (realpath (q_point q)) = false) as ->.
      { apply occupied_false. intros n.
        assert (in_folders fs2) as F2.
        { destruct A as [(_ & _ & F2 & _)|[(_ & -> & _)|(_ & _ & F2 & _)]]; [exact F2|exact F|exact F2]. }
        assert (fget fs1' (realpath (q_point q) ++ [n]) = None) as Z1.
        { destruct (B (realpath (q_point q) ++ [n])) as [->|(_ & p & Hp & [r Er] & Nyp)].
          - rewrite G1; [now apply below_missing|]. right. intros E. apply (f_equal (@length _)) in E. rewrite app_length in E. cbn in E. lia.
          - exfalso. apply (No p Hp). destruct (exists_last (l := r)) as (r' & m & ->).
            + intros ->. rewrite app_nil_r in Er. congruence.
            + rewrite app_assoc in Er. apply app_inj_tail in Er as [Er _]. now exists r'. }
        unfold fsc. destruct (h_temporary h) as [t|] eqn:Ht; [|exact Z1].
        assert (t = temporary) as ->.
        { destruct A as [(D & _)|[(D & _)|(D & _)]]; congruence. }
        rewrite fget_filter by exact T1. destruct (loc_prefix temporary (realpath (q_point q) ++ [n])); [reflexivity|exact Z1]. }
      rewrite fget_fdel, loc_eqb_refl by assumption. left. now rewrite N0.
  Qed.

  Lemma init_err fs q e fs1 h : init fs q = (Err e, (fs1, h)) -> h_created h = None.
  Proof.
    unfold Mounts_Model.init. cbv zeta.
    assert (forall X : res (root U) * (folders * held), X = (Err e, (fs1, h)) ->
      X = (match prepare_overlay realpath temporary fs (q_overlay q) with
            | Err e => (Err e, (fs, mkHeld None None))
            | Ok (fs1, overlay, temp) =>
                match open_all realpath open_source fs1 (realpath (q_point q)) false (filter (kept realpath fs) (q_inputs q) ++ match overlay with Some p => [written p] | None => [] end) with
                | Err e => (Err e, (fs1, mkHeld temp None))
                | Ok l =>
                    match prepare_log realpath fs1 (q_log q) with
                    | Err e => (Err e, (fs1, mkHeld temp None))
                    | Ok fs2 =>
                        match finish fs2 q (realpath (q_point q)) overlay (with_control_layer control_layer no_subvolumes (q_control q) l) with
                        | Err e => (Err e, (fs2, mkHeld temp None))
                        | Ok (r, fs3, made) => (Ok r, (fs3, mkHeld temp (if made then Some (realpath (q_point q)) else None)))
                        end
                    end
                end
            end) -> h_created h = None) as K.
    { intros X -> E. symmetry in E. destruct (prepare_overlay _ _ _ _) as [[[fsa ov] temp]|] eqn:P; [|now injection E as _ _ <-].
      destruct (open_all _ _ _ _ _ _) as [l|] eqn:O; [|now injection E as _ _ <-].
      destruct (prepare_log _ _ _) as [fsb|] eqn:L; [|now injection E as _ _ <-].
      destruct (finish _ _ _ _ _) as [[[r' fs3] made]|] eqn:Fi; [discriminate|now injection E as _ _ <-]. }
    destruct (fget fs (realpath (q_point q))) as [[|]|]; [| intros [= _ _ <-]; reflexivity |];
      (destruct (q_inputs q) as [|i0 inputs'] eqn:Ei; [|destruct (filter (kept realpath fs) (i0 :: inputs')) as [|p0 paths'] eqn:Ep; [intros [= _ _ <-]; reflexivity|]]);
      intros H; apply (K _ H eq_refl).
  Qed.

  Lemma failure_left fs q e fs1 h : in_folders fs -> fresh_temporary realpath fs q temporary -> init fs q = (Err e, (fs1, h)) ->
    forall x, fget (close fs1 h) x = fget fs x \/ (fget fs x = None /\ asked_for realpath q x).
  Proof.
    intros F T H x. pose proof (init_err _ _ _ _ _ H) as Ec. destruct (init_started _ _ _ _ _ F T H) as (fs2 & A & C). destruct T as (T1 & T2 & _).
    destruct C as [[_ ->]|(K & _)]; [|congruence]. unfold close. rewrite Ec. destruct A as [(-> & _ & _ & A)|[(-> & -> & _)|(-> & _ & _ & _ & A)]]; [apply A|now left|].
    rewrite fget_filter by exact T1. destruct (loc_prefix_spec temporary x) as [[r Er]|Nb].
    - left. subst x. symmetry. now apply below_missing.
    - apply A. intros ->. apply Nb, below_refl.
  Qed.

  Lemma mounted fs q r fs1 h : resolves realpath temporary -> temporary <> [] -> init fs q = (Ok r, (fs1, h)) ->
    (q_log q = [] -> fget fs1 (realpath (q_point q)) = Some KDir) /\ fget fs1 (realpath (q_point q)) <> None /\
    forall o, overlay_at realpath temporary (q_overlay q) o -> fget fs1 o <> None.
  Proof.
    intros [R1 R2] T H. destruct (init_ok _ _ _ _ _ _ _ _ _ H) as (fsa & ov & temp & l & fsb & fs3 & made & P & _ & L & Fi & Er & Nf).
    injection Er as <- _. apply finish_ok in Fi as (_ & _ & M).
    assert (forall x, fget fsb x <> None -> fget fs1 x = fget fsb x) as G3.
    { intros x Hx. destruct M as [(_ & -> & _)|(_ & Gn & M)]; [reflexivity|]. unfold make_folder in M.
      destruct (fget fsb (removelast (realpath (q_point q)))) as [[|]|]; try discriminate. injection M as <-.
      rewrite fget_fset by (intros E; rewrite E in Gn; discriminate). destruct (loc_eqb_spec x (realpath (q_point q))) as [->|]; congruence. }
    assert (fget fs1 (realpath (q_point q)) <> None /\ (fget fsb (realpath (q_point q)) = None -> fget fs1 (realpath (q_point q)) = Some KDir)) as [Gp Gd].
    { destruct M as [(_ & -> & Gn)|(_ & Gn & M)]; [split; [exact Gn|congruence]|]. unfold make_folder in M.
      destruct (fget fsb (removelast (realpath (q_point q)))) as [[|]|]; try discriminate. injection M as <-.
      rewrite fget_fset, loc_eqb_refl by (intros E; rewrite E in Gn; discriminate). split; [discriminate|auto]. }
    assert (forall x, fget fsa x <> None -> fget fsb x = fget fsa x) as G2.
    { intros x Hx. unfold prepare_log in L. destruct (str_eqb (q_log q) []); [now injection L as <-|]. cbv zeta in L.
      destruct (mkdirs fsa [] (removelast (realpath (q_log q)))) as [fsm|] eqn:Mk; cbn [bind] in L; [|discriminate].
      assert (fget fsm x = fget fsa x) as Em by (destruct (mkdirs_facts _ _ _ _ Mk x) as [K|(K1 & _)]; congruence).
      unfold make_file in L. destruct (fget fsm (realpath (q_log q))) as [[|]|] eqn:G; [discriminate|now injection L as <-|].
      destruct (fget fsm (removelast (realpath (q_log q)))) as [[|]|]; try discriminate. injection L as <-.
      rewrite fget_fset by (intros E; rewrite E in G; discriminate). destruct (loc_eqb_spec x (realpath (q_log q))) as [->|]; congruence. }
    assert ((forall o, overlay_at realpath temporary (q_overlay q) o -> fget fsa o <> None) /\ (fget fsa (realpath (q_point q)) <> Some KFile)) as [G1 Gk].
    { unfold prepare_overlay in P. destruct (str_eqb_spec (q_overlay q) []) as [E|N].
      { injection P as <- _ _. split; [|exact Nf]. intros o [[K _]|(K & _)]; [rewrite E in K; discriminate|congruence]. }
      destruct (str_eqb_spec (q_overlay q) $":temp:") as [E|Nt].
      { injection P as <- _ _. split.
        - intros o [[_ ->]|(_ & K & _)]; [|congruence]. rewrite fget_fset, loc_eqb_refl by exact T. discriminate.
        - rewrite fget_fset by exact T. destruct (loc_eqb (realpath (q_point q)) temporary); [discriminate|exact Nf]. }
      cbv zeta in P. destruct (fget fs (realpath (q_overlay q))) eqn:G.
      { injection P as <- _ _. split; [|exact Nf]. intros o [[K _]|(_ & _ & ->)]; congruence. }
      destruct (mkdirs fs [] (realpath (q_overlay q))) as [fs'|] eqn:Mk; cbn [bind] in P; [|discriminate]. injection P as <- _ _. split.
      - intros o [[K _]|(_ & _ & ->)]; [congruence|]. pose proof (mkdirs_makes _ _ _ _ Mk (fget_root fs)) as K. cbn [app] in K. congruence.
      - destruct (mkdirs_facts _ _ _ _ Mk (realpath (q_point q))) as [K|(_ & K & _)]; congruence. }
    split; [|split; [exact Gp|]].
    - intros El. assert (fsb = fsa) as -> by (unfold prepare_log in L; rewrite El in L; cbn in L; now injection L as ->).
      destruct (fget fsa (realpath (q_point q))) as [[|]|] eqn:E; [rewrite G3; congruence|congruence|now apply Gd].
    - intros o A. specialize (G1 o A). rewrite G3; rewrite G2; auto.
  Qed.
End Trace.

(** ** Sources side by side and the overlay *)
Section Beside.
  Context {S : Type}.
  Variable good : S -> Prop.

  Fixpoint walk (ks : list str) (n : node S) : option (node S) :=
    match ks with
    | [] => Some n
    | k :: r => match n with Mounted _ => None | Folder d => match dget str_eqb d k with Some c => walk r c | None => None end end
    end.
  Definition all_good (n : node S) : Prop := forall ks s, walk ks n = Some (Mounted s) -> good s.

  Lemma all_good_folder d : all_good (Folder d) <-> forall k c, dget str_eqb d k = Some c -> all_good c.
  Proof.
    split.
    - intros H k c E ks s W. apply (H (k :: ks)). cbn [walk]. now rewrite E.
    - intros H [|k ks] s W; cbn [walk] in W; [discriminate|]. destruct (dget str_eqb d k) as [c|] eqn:E; [|discriminate]. exact (H k c E ks s W).
  Qed.

  Lemma get_by_path_good {R} create (use : node S -> node S * R) : (forall n, all_good n -> all_good (fst (use n))) ->
    forall parts n, all_good n -> all_good (fst (get_by_path create use parts n)).
  Proof.
    intros H. induction parts as [|p r IH]; intros n G; cbn [get_by_path].
    - specialize (H n G). destruct (use n). exact H.
    - destruct (str_eqb p []); [now apply IH|]. destruct n as [x|d]; [exact G|].
      rewrite all_good_folder in G. destruct (dget str_eqb d p) as [c|] eqn:E.
      + specialize (IH c (G p c E)). destruct (get_by_path create use r c) as [c' a]. cbn [fst] in *. apply all_good_folder. intros k c0.
        rewrite (dget_dset str_eqb str_eqb_spec). destruct (str_eqb k p); [intros [= <-]; exact IH|apply G].
      + destruct create; [|now apply all_good_folder].
        assert (all_good (Folder (S := S) [])) as G0 by (apply all_good_folder; intros k c; discriminate).
        specialize (IH _ G0). destruct (get_by_path true use r (Folder [])) as [c' a]. cbn [fst] in *. apply all_good_folder. intros k c0.
        rewrite (dget_dset str_eqb str_eqb_spec). destruct (str_eqb k p); [intros [= <-]; exact IH|apply G].
  Qed.

  Lemma mount_good path s n : good s -> all_good n -> all_good (fst (mount path s n)).
  Proof.
    intros Gs G. unfold mount. destruct (parent_and_name path) as [parent name]. destruct (str_eqb name []); [exact G|]. cbv zeta.
    set (use := fun n0 : node S => _). pose proof (get_by_path_good true use) as K.
    assert (forall m, all_good m -> all_good (fst (use m))) as U.
    { intros m Gm. unfold use. destruct m as [x|d]; [exact Gm|]. destruct (dmem str_eqb d name); [exact Gm|]. cbn [fst].
      rewrite all_good_folder in *. intros k c. rewrite (dget_dset str_eqb str_eqb_spec). destruct (str_eqb k name); [|apply Gm].
      intros [= <-] [|? ?] s' W; cbn in W; [now injection W as <-|discriminate]. }
    specialize (K U (parts_of parent) n G). destruct (get_by_path true use (parts_of parent) n) as [root' r]. cbn [fst] in *.
    destruct r as [[|]| |]; exact K.
  Qed.

  Lemma mount_each_good l : forall n n', Forall good (map snd l) -> all_good n -> mount_each l n = Ok n' -> all_good n'.
  Proof.
    induction l as [|[path s] l IH]; intros n n' Gl G H; cbn [mount_each] in H; [now injection H as <-|].
    cbn [map snd] in Gl. apply Forall_cons_iff in Gl as [Gs Gl]. pose proof (mount_good path s n Gs G) as K.
    destruct (mount path s n) as [n1 a]. cbn [fst] in K. destruct a; [|discriminate]. exact (IH _ _ Gl K H).
  Qed.

  Lemma multi_good l n : Forall good (map snd l) -> create_multi_mount l = Ok n -> all_good n.
  Proof.
    intros G H. unfold create_multi_mount in H. destruct (unique_keys_spec l [] 1) as (names & E & C); [lia|]. rewrite E in H. cbn [bind app] in H.
    apply (mount_each_good _ _ _) in H; [exact H| |].
    - apply Forall_forall. intros s I. apply in_map_iff in I as ([k x] & <- & I). apply in_combine_r in I. rewrite Forall_forall in G. exact (G _ I).
    - apply all_good_folder. intros k c. discriminate.
  Qed.

  Lemma find_one_name (n : node S) name mp sub s : proper_name name -> all_good n ->
    find_mount_source (slash :: name) n = Some (AtMount mp sub s) -> sub = $"/" /\ good s.
  Proof.
    intros P G. unfold find_mount_source, parts_of. destruct n as [|d]; [discriminate|].
    assert (strip slash (slash :: name) = name) as ->.
    { change (slash :: name) with (written [name]). rewrite strip_written; [|now apply Forall_cons|discriminate]. reflexivity. }
    assert (split slash name = [name]) as -> by (apply split_no_sep; apply P).
    cbn [find_loop]. destruct (str_eqb_spec name []) as [E|_]; [now destruct P|].
    destruct (dget str_eqb d name) as [[x|d']|] eqn:E; [|discriminate|discriminate]. intros [= <- <- <-]. split; [reflexivity|].
    apply (G [name]). cbn [walk]. now rewrite E.
  Qed.
End Beside.

(** ** The control folder *)
Lemma forbidden_spec p : Forall proper_name p -> forbidden [control_prefix] (written p) = true <-> in_control p.
Proof.
  intros P. unfold forbidden. cbn [existsb]. rewrite orb_false_r.
  change (ignored_prefix control_prefix) with (written control_folder ++ $"/").
  rewrite starts_with_spec. unfold in_control. split.
  - intros (t & E). destruct p as [|c r].
    { discriminate E. }
    unfold written in E. assert (~ In slash c) as Nc by (apply Forall_inv in P; apply P).
    injection E as E. destruct r as [|n r].
    + cbn [join] in E. exfalso. apply Nc. rewrite E. cbn. do 19 right. now left.
    + change (join $"/" (c :: n :: r)) with (c ++ slash :: join $"/" (n :: r)) in E.
      exists n, r. cbn [control_folder app]. f_equal.
      assert (split slash (c ++ slash :: join $"/" (n :: r)) = split slash ($".ratarmount-control" ++ slash :: t)) as Es by (f_equal; exact E).
      rewrite split_app in Es by exact Nc. rewrite split_app in Es; [now injection Es|]. cbn. intuition discriminate.
  - intros (n & r & ->). exists (join $"/" (n :: r)). reflexivity.
Qed.

Section Control.
  Context {A : Type} (zero : A).
  Variable lower : location -> option (@lnode A).
  Variable lower_names : location -> list str.
  Variable attributes : @ostate A -> location -> Z * Z * Z * Z.
  Hypothesis low : tree_like LDir lower lower_names.
  Notation step := (step zero lower lower_names attributes).

  (** A call changes the overlay folder only at the path it is about and above it. *)
  Lemma parent_place st p r st1 q : ensure_parent_exists lower st p = (r, st1) -> ~ at_or_below q p -> oget (o_fs st1) q = oget (o_fs st) q.
  Proof.
    intros H N. destruct (ensure_parent_facts lower lower_names low _ _ _ _ H) as (_ & _ & _ & F). destruct (F q) as [E|(_ & _ & Nq & _ & b & E)]; [exact E|].
    exfalso. apply N. destruct p as [|x p]; [cbn in E; destruct q; [congruence|discriminate]|].
    destruct (split_last (x :: p)) as (l & n & E1 & E2); [discriminate|]. rewrite E2 in E. rewrite E1, E. exists (b ++ [n]). now rewrite app_assoc.
  Qed.

  Lemma not_below_neq' (p q : location) : ~ at_or_below q p -> q <> p.
  Proof. intros N ->. apply N. apply below_refl. Qed.

  Lemma row_place st p m r st1 q : open_row lower st p m = (r, st1) -> ~ at_or_below q p -> oget (o_fs st1) q = oget (o_fs st) q.
  Proof.
    unfold open_row. intros H N. destruct (ensure_parent_exists lower st p) as [[u|e] st0] eqn:E; injection H as _ <-; cbn [o_fs with_rows];
      exact (parent_place _ _ _ _ _ E N).
  Qed.

  Lemma modifiable_place st p r st1 q : well_kept st -> ensure_file_is_modifiable lower st p = (r, st1) -> ~ at_or_below q p ->
    oget (o_fs st1) q = oget (o_fs st) q.
  Proof.
    unfold ensure_file_is_modifiable. intros W H N. destruct (ensure_parent_exists lower st p) as [[u|e] st0] eqn:E.
    - pose proof (ensure_parent_kept lower lower_names low _ _ _ _ E W) as W0.
      destruct (copy_to_effect lower attributes _ _ _ _ _ H W0) as (_ & F & _). rewrite F by now apply not_below_neq'. exact (parent_place _ _ _ _ _ E N).
    - injection H as _ <-. exact (parent_place _ _ _ _ _ E N).
  Qed.

  Lemma step_place st o q : well_kept st ->
    match o with
    | OpRename a b => ~ at_or_below a q /\ ~ at_or_below b q /\ ~ at_or_below q b
    | _ => forall p, subject o p -> ~ at_or_below q p
    end ->
    oget (o_fs (snd (step st o))) q = oget (o_fs st) q.
  Proof.
    intros W N. destruct o as [p m|p m|p|t s|t s|p|p|a b|p n|p|i d k|p c]; cbn [Overlay_Model.step subject] in *;
      try specialize (N _ eq_refl); try pose proof (not_below_neq' _ _ N) as Nq.
    - unfold drop, create. cbn [snd]. destruct (open_row lower st p m) as [[u|e] st1] eqn:E; cbn [snd]; [|exact (row_place _ _ _ _ _ _ E N)].
      destruct (os_create st1 p) as [r st2] eqn:C. destruct (os_create_effect attributes _ _ _ _ C) as (_ & F & _). cbn [snd]. rewrite F by exact Nq. exact (row_place _ _ _ _ _ _ E N).
    - unfold mkdir. destruct (open_row lower st p m) as [[u|e] st1] eqn:E; cbn [snd]; [|exact (row_place _ _ _ _ _ _ E N)].
      destruct (os_add st1 p ODir) as [r st2] eqn:C. destruct (os_add_effect _ _ _ _ _ C) as (_ & _ & _ & F & _). cbn [snd]. rewrite F by exact Nq. exact (row_place _ _ _ _ _ _ E N).
    - unfold mknod. destruct (ensure_parent_exists lower st p) as [[u|e] st1] eqn:E; cbn [snd]; [|exact (parent_place _ _ _ _ _ E N)].
      destruct (os_add st1 p (OFile (o_next st1))) as [r st2] eqn:C. destruct (os_add_effect _ _ _ _ _ C) as (_ & _ & _ & F & _).
      destruct r; cbn [snd o_fs]; rewrite F by exact Nq; exact (parent_place _ _ _ _ _ E N).
    - unfold symlink. destruct (os_add st t (OLink s)) as [r st2] eqn:C. destruct (os_add_effect _ _ _ _ _ C) as (_ & _ & _ & F & _). cbn [snd]. now apply F.
    - unfold link. destruct (negb (in_overlay st s) && union_exists lower st s); [reflexivity|].
      destruct (match s with [] => Some ODir | _ => oget (o_fs st) s end) as [[|i|x]|]; try reflexivity;
        (destruct (os_add st t _) as [r st2] eqn:C; destruct (os_add_effect _ _ _ _ _ C) as (_ & _ & _ & F & _); cbn [snd]; now apply F).
    - unfold unlink. destruct (negb (union_exists lower st p) || is_deleted st p); cbn [snd]; [now rewrite (proj1 (mark_effect lower _ _))|].
      destruct (in_overlay st p); cbn [snd]; [|now rewrite (proj1 (mark_effect lower _ _))].
      destruct (os_unlink st p) as [r st2] eqn:C. destruct (os_unlink_effect _ _ _ _ C) as (_ & _ & _ & F & _). cbn [snd].
      rewrite (proj1 (mark_effect lower _ _)). now apply F.
    - unfold rmdir. destruct (negb (union_exists lower st p) || is_deleted st p); [reflexivity|].
      destruct (negb (subset (union_names lower_names st p) (list_deleted st p))); [reflexivity|].
      destruct (in_overlay st p); cbn [snd]; [|now rewrite (proj1 (mark_effect lower _ _))].
      destruct (os_rmdir st p) as [r st2] eqn:C. destruct (os_rmdir_effect _ _ _ _ C) as (_ & _ & _ & F & _). cbn [snd].
      rewrite (proj1 (mark_effect lower _ _)). now apply F.
    - destruct N as (N1 & N2 & N3). pose proof (not_below_neq' _ _ N3) as Nq. unfold rename.
      destruct (negb (union_exists lower st a) || is_deleted st a); [reflexivity|]. cbv zeta.
      destruct (row_for lower attributes _ a) as [r|e]; [|reflexivity].
      match goal with |- context[ensure_parent_exists lower ?s b] => set (st2 := s) end.
      assert (W2 : well_kept st2).
      { unfold st2. apply rows_kept; [apply rows_kept; [exact W|apply NoDup_rdel; exact (proj1 (proj2 W))]|].
        apply NoDup_rset, NoDup_rdel. cbn [o_rows with_rows]. apply NoDup_rdel. exact (proj1 (proj2 W)). }
      assert (oget (o_fs st2) q = oget (o_fs st) q) as E2 by reflexivity. clearbody st2.
      destruct (ensure_parent_exists lower st2 b) as [[u|e] st3] eqn:E; pose proof (parent_place _ _ _ _ _ E N3) as E3; cbn [snd]; [|congruence].
      pose proof (ensure_parent_kept lower lower_names low _ _ _ _ E W2) as W3.
      destruct (in_overlay st3 a).
      + destruct (os_rename st3 a b) as [r' st4] eqn:R. destruct (os_rename_effect attributes _ _ _ _ _ R W3) as (_ & _ & _ & F & _). cbn [snd]. rewrite F by assumption. congruence.
      + destruct (copy_to lower st3 a b) as [[u'|e] st4] eqn:R; destruct (copy_to_effect lower attributes _ _ _ _ _ R W3) as (_ & F & _); cbn [snd];
          [rewrite (proj1 (mark_effect lower _ _))|]; rewrite F by exact Nq; congruence.
    - unfold truncate. destruct (ensure_file_is_modifiable lower st p) as [[u|e] st1] eqn:E; cbn [snd]; [|exact (modifiable_place _ _ _ _ _ W E N)].
      unfold os_truncate. destruct (oget (o_fs st1) p) as [[|i|x]|]; cbn [snd]; exact (modifiable_place _ _ _ _ _ W E N).
    - unfold drop, Overlay_Model.open_overlay.
      assert (forall st1, oget (o_fs st1) q = oget (o_fs st) q ->
        oget (o_fs (snd (match p with
                         | [] => (Err EISDIR, st1)
                         | _ :: _ => match oget (o_fs st1) p with
                                     | Some ODir => (Err EISDIR, st1) | Some (OFile i) => (Ok i, st1)
                                     | Some (OLink _) => (Err EIO, st1) | None => (Err ENOENT, st1) end
                         end : res nat * @ostate A))) q = oget (o_fs st) q) as K.
      { intros st1 Es. destruct p as [|x0 p0]; [exact Es|]. destruct (oget (o_fs st1) (x0 :: p0)) as [[|i|x]|]; exact Es. }
      cbn [snd]. destruct (in_overlay st p); [exact (K st eq_refl)|]. destruct (union_exists lower st p); cbn [negb]; [|reflexivity].
      destruct (ensure_file_is_modifiable lower st p) as [[u|e] st1] eqn:E; [apply (K st1); exact (modifiable_place _ _ _ _ _ W E N)|].
      cbn [snd]. exact (modifiable_place _ _ _ _ _ W E N).
    - reflexivity.
    - unfold set_attributes. destruct (row_for lower attributes st p) as [r|]; [|reflexivity]. destruct c as [m|[u|] [g|]|t]; reflexivity.
  Qed.

  Lemma in_control_up p q : in_control q -> at_or_below q p -> in_control p.
  Proof. intros (n & r & ->) [t ->]. exists n, (r ++ t). now rewrite <- app_assoc. Qed.

  Lemma guarded_control st o q : well_kept st -> (forall p, subject o p -> Forall proper_name p) -> ~ renames_control o ->
    in_control q -> oget (o_fs st) q = None ->
    let st1 := snd (guarded zero lower lower_names attributes [control_prefix] st o) in
    well_kept st1 /\ oget (o_fs st1) q = None /\ visible lower st1 q = visible lower st q.
  Proof.
    intros W P R Q E. cbv zeta. unfold guarded.
    assert (forall p, checked_path o = Some p -> forbidden [control_prefix] (written p) = false ->
              (forall x, subject o x -> x = p) -> well_kept (snd (step st o)) /\ oget (o_fs (snd (step st o))) q = None /\ visible lower (snd (step st o)) q = visible lower st q) as K.
    { intros p C Fb Sx.
      assert (~ in_control p) as Np.
      { intros I. apply forbidden_spec in I; [congruence|]. apply P. destruct o; cbn in C; try discriminate; injection C as <-; cbn; auto. }
      assert (forall x, subject o x -> ~ at_or_below q x) as Nx.
      { intros x Sub B. rewrite (Sx x Sub) in B. apply Np. exact (in_control_up _ _ Q B). }
      split; [now apply step_kept|]. split.
      - rewrite step_place; [exact E|exact W|]. destruct o; cbn in C; try discriminate; exact Nx.
      - apply step_frame; auto. intros M.
        assert (forall p', ~ same_file st p' q) as Nf by (intros p' (i & _ & I); congruence).
        destruct o; cbn in C, M, Nx; try discriminate; try contradiction; injection C as <-;
          try (apply (Nx _ eq_refl); rewrite M; apply below_refl).
        + destruct M as [->|M]; [apply (Nx _ eq_refl), below_refl|exact (Nf _ M)].
        + destruct M as [->|M]; [apply (Nx _ eq_refl), below_refl|exact (Nf _ M)]. }
    destruct (checked_path o) as [p|] eqn:C.
    - destruct (forbidden [control_prefix] (written p)) eqn:Fb; [cbn [snd]; auto|]. apply (K p eq_refl Fb).
      intros x Sub. destruct o; cbn in C, Sub; try discriminate; injection C as <-; assumption.
    - assert (forall a b, o = OpRename a b -> ~ at_or_below a q /\ ~ at_or_below b q /\ ~ at_or_below q b) as Nr.
      { intros a b ->. cbn [renames_control] in R. destruct Q as (n & r & ->).
        assert (forall p, p = a \/ p = b -> ~ at_or_below p (control_folder ++ n :: r)) as Na.
        { intros p Hp [t Et]. apply R. exists p. split; [exact Hp|]. destruct p as [|x p]; [now right|]. left.
          cbn [control_folder app] in Et. injection Et as <- Et. exists p. reflexivity. }
        split; [apply Na; now left|]. split; [apply Na; now right|]. intros [t ->]. apply R. exists ((control_folder ++ n :: r) ++ t).
        split; [now right|]. left. exists ((n :: r) ++ t). now rewrite app_assoc. }
      split; [now apply step_kept|]. split.
      + rewrite step_place; [exact E|exact W|]. destruct o as [| | | | | | |a b| | | |]; cbn in C; try discriminate; [exact (Nr a b eq_refl)|intros p []].
      + apply step_frame; auto. intros M. destruct o as [| | | | | | |a b| | |i d k|]; cbn in C, M; try discriminate.
        * destruct (Nr a b eq_refl) as (N1 & N2 & _). destruct M as [M|[M|(i & _ & M)]]; [contradiction|contradiction|congruence].
        * congruence.
  Qed.

  Lemma run_control h : forall st, well_kept st -> (forall o p, In o h -> subject o p -> Forall proper_name p) ->
    (forall o, In o h -> ~ renames_control o) -> forall q, in_control q -> oget (o_fs st) q = None ->
    let st1 := run_guarded zero lower lower_names attributes [control_prefix] st h in
    oget (o_fs st1) q = None /\ visible lower st1 q = visible lower st q.
  Proof.
    induction h as [|o h IH]; intros st W P R q Q E; cbn [run_guarded fold_left]; cbv zeta; [auto|].
    destruct (guarded_control st o q W (fun p => P o p (or_introl eq_refl)) (R o (or_introl eq_refl)) Q E) as (W1 & E1 & V1).
    destruct (IH _ W1 (fun o' p I => P o' p (or_intror I)) (fun o' I => R o' (or_intror I)) q Q E1) as [E2 V2].
    split; [exact E2|]. unfold run_guarded in V2. congruence.
  Qed.
End Control.

(** ** Starting *)
Section Starting.
  Context {U : Type}.
  Variable realpath : str -> location.
  Variable open_source : str -> res (opened U).
  Variables control_layer no_subvolumes : source U.
  Variable temporary : location.
  Notation init := (init realpath open_source control_layer no_subvolumes temporary).

  Lemma init_file fs q : fget fs (realpath (q_point q)) = Some KFile -> init fs q = (Err ValueError, (fs, mkHeld None None)).
  Proof. intros E. unfold Mounts_Model.init. now rewrite E. Qed.

  Lemma filter_none fs l : (forall x, In x l -> ~ given realpath fs x) -> filter (kept realpath fs) l = [].
  Proof.
    induction l as [|a l IH]; intros H; [reflexivity|]. cbn [filter]. destruct (kept realpath fs a) eqn:E.
    - exfalso. apply kept_spec in E. exact (H a (or_introl eq_refl) E).
    - apply IH. intros x I. apply H. now right.
  Qed.

  Lemma init_missing fs q : q_inputs q <> [] -> (forall x, In x (q_inputs q) -> ~ given realpath fs x) ->
    init fs q = (Err ValueError, (fs, mkHeld None None)).
  Proof.
    intros N H. unfold Mounts_Model.init. cbv zeta. rewrite (filter_none fs _ H). destruct (q_inputs q); [congruence|].
    now destruct (fget fs (realpath (q_point q))) as [[|]|].
  Qed.

  Lemma init_nothing fs q : q_inputs q = [] -> q_overlay q = [] -> q_control q = false -> exists e, fst (init fs q) = Err e.
  Proof.
    intros E1 E2 E3. unfold Mounts_Model.init. cbv zeta. rewrite E1, E2, E3. unfold prepare_overlay.
    destruct (str_eqb_spec [] []) as [_|N]; [|congruence]. cbn [filter app open_all with_control_layer].
    destruct (prepare_log realpath fs (q_log q)) as [fs2|e]; destruct (fget fs (realpath (q_point q))) as [[|]|]; cbn; eauto.
  Qed.

  Lemma init_without fs a x b point overlay log control beside : ~ given realpath fs x -> (exists y, In y (a ++ b) /\ given realpath fs y) ->
    init fs (mkRequest (a ++ x :: b) point overlay log control beside) = init fs (mkRequest (a ++ b) point overlay log control beside).
  Proof.
    intros N (y & Iy & Gy). unfold Mounts_Model.init. cbv zeta. cbn [q_inputs q_point q_overlay q_log q_control q_side_by_side].
    assert (filter (kept realpath fs) (a ++ x :: b) = filter (kept realpath fs) (a ++ b)) as ->.
    { rewrite !filter_app. cbn [filter]. destruct (kept realpath fs x) eqn:E; [|reflexivity]. apply kept_spec in E. contradiction. }
    assert (In y (filter (kept realpath fs) (a ++ b))) as I by (apply filter_In; split; [exact Iy|now apply kept_spec]).
    destruct (filter (kept realpath fs) (a ++ b)) as [|z l]; [destruct I|].
    destruct (fget fs (realpath point)) as [[|]|]; [|reflexivity|]; (destruct (a ++ x :: b) eqn:E1; [now destruct a|]); destruct (a ++ b) eqn:E2; [destruct Iy|reflexivity|destruct Iy|reflexivity].
  Qed.

  Lemma compose_ok (l : list (str * opened U)) : l <> [] -> exists r, compose false l = Ok r.
  Proof. destruct l as [|[k s] [|e l]]; [congruence| |]; intros _; cbn; eauto. Qed.

  Lemma init_starts fs q : resolves realpath temporary -> fresh_temporary realpath fs q temporary -> q_side_by_side q = false -> q_log q = [] ->
    fget fs (realpath (q_point q)) <> Some KFile ->
    (fget fs (realpath (q_point q)) = None ->
       fget fs (removelast (realpath (q_point q))) = Some KDir /\ forall x, In x (q_inputs q) -> realpath x <> realpath (q_point q)) ->
    (q_inputs q = [] \/ exists x, In x (q_inputs q) /\ given realpath fs x) ->
    (q_inputs q <> [] \/ q_overlay q <> [] \/ q_control q = true) ->
    (forall x, In x (q_inputs q) -> given realpath fs x -> exists s, open_source x = Ok s) ->
    (forall o, overlay_at realpath temporary (q_overlay q) o ->
       (o = temporary \/ fget fs o = Some KDir) /\
       (o <> realpath (q_point q) \/ (forall x, In x (q_inputs q) -> realpath x <> realpath (q_point q))) /\
       exists s info, open_source (written o) = Ok (Some (written o), s) /\
         s_lookup s (written [$".ratarmount.overlay.sqlite"]) 0 = Some info /\ is_reg_mode (fi_mode info) = true /\
         (q_control q = true -> lacks control_layer [$".ratarmount.overlay.sqlite"])) ->
    exists r, fst (init fs q) = Ok r.
  Proof.
    intros [R1 R2] (T1 & T2 & T3 & T4 & T5 & T6) Sb El Pf Pn G1 G2 Op Ov.
    (* the overlay folder *)
    assert (exists fs1 overlay temp, prepare_overlay realpath temporary fs (q_overlay q) = Ok (fs1, overlay, temp) /\
      (forall x, fget fs x <> None -> fget fs1 x = fget fs x) /\ (fget fs (realpath (q_point q)) = None -> fget fs1 (realpath (q_point q)) = None) /\
      (overlay = None /\ q_overlay q = [] \/ exists o, overlay = Some o /\ overlay_at realpath temporary (q_overlay q) o /\ fget fs1 o = Some KDir)) as
      (fs1 & overlay & temp & H1 & K1 & K2 & K3).
    { unfold prepare_overlay. destruct (str_eqb_spec (q_overlay q) []) as [E|N]; [exists fs, None, None; repeat split; auto|].
      destruct (str_eqb_spec (q_overlay q) $":temp:") as [E|Nt].
      - exists (fset fs temporary KDir), (Some temporary), (Some temporary). split; [reflexivity|].
        split; [intros x Hx; rewrite fget_fset by exact T1; destruct (loc_eqb_spec x temporary) as [->|]; congruence|].
        split; [intros Hx; rewrite fget_fset by exact T1; destruct (loc_eqb_spec (realpath (q_point q)) temporary) as [Ex|]; [|exact Hx]; exfalso; apply T4; rewrite Ex; apply below_refl|].
        right. exists temporary. split; [reflexivity|]. split; [now left|]. rewrite fget_fset, loc_eqb_refl by exact T1. reflexivity.
      - cbv zeta. assert (overlay_at realpath temporary (q_overlay q) (realpath (q_overlay q))) as A by (now right).
        destruct (Ov _ A) as ([Et|Ed] & _); [exfalso; apply T5; rewrite Et; apply below_refl|]. rewrite Ed.
        exists fs, (Some (realpath (q_overlay q))), None. repeat split; auto. right. exists (realpath (q_overlay q)). auto. }
    (* opening *)
    set (paths := filter (kept realpath fs) (q_inputs q) ++ match overlay with Some p => [written p] | None => [] end) in *.
    assert (exists l, open_all realpath open_source fs1 (realpath (q_point q)) false paths = Ok l) as (l & H2).
    { destruct (fget fs (realpath (q_point q))) as [kd|] eqn:Ep.
      - apply open_all_ok.
        + left. rewrite K1; congruence.
        + intros x I. apply in_app_iff in I as [I|I].
          * apply filter_In in I as [I K]. apply kept_spec in K. now apply Op.
          * destruct K3 as [[-> _]|(o & -> & A & _)]; [destruct I|]. destruct I as [<-|[]]. destruct (Ov o A) as (_ & _ & s & info & O & _). eauto.
      - destruct (Pn eq_refl) as [_ Nx]. apply open_all_ok.
        + right. intros x I. apply in_app_iff in I as [I|I]; [apply filter_In in I as [I _]; now apply Nx|].
          destruct K3 as [[-> _]|(o & -> & A & Fo)]; [destruct I|]. destruct I as [<-|[]].
          assert (realpath (written o) = o) as -> by (destruct A as [[_ ->]|(_ & _ & ->)]; auto). intros Eo. rewrite Eo in Fo. rewrite (K2 eq_refl) in Fo. discriminate.
        + intros x I. apply in_app_iff in I as [I|I].
          * apply filter_In in I as [I K]. apply kept_spec in K. now apply Op.
          * destruct K3 as [[-> _]|(o & -> & A & _)]; [destruct I|]. destruct I as [<-|[]]. destruct (Ov o A) as (_ & _ & s & info & O & _). eauto. }
    (* something is mounted *)
    assert (with_control_layer control_layer no_subvolumes (q_control q) l <> []) as Nl.
    { unfold with_control_layer. destruct (q_control q) eqn:Ct; [destruct l; discriminate|]. intros ->.
      assert (forall y ys, open_all realpath open_source fs1 (realpath (q_point q)) false (y :: ys) <> Ok []) as Z1.
      { intros y ys. cbn [open_all]. destruct (negb _); destruct (open_source y); cbn [bind]; try discriminate.
        - destruct (open_all _ _ _ _ _ ys); discriminate.
        - destruct (fget fs1 _); [|discriminate]. destruct (open_all _ _ _ _ _ ys); discriminate. }
      destruct paths as [|y ys] eqn:Epa; [|exact (Z1 _ _ H2)]. unfold paths in Epa. apply app_eq_nil in Epa as [Ea Eb].
      destruct K3 as [[-> Eo]|(o & -> & _)]; [|discriminate]. destruct G1 as [G1|(x & Ix & Gx)].
      - destruct G2 as [G2|[G2|G2]]; congruence.
      - assert (In x (filter (kept realpath fs) (q_inputs q))) as I by (apply filter_In; split; [exact Ix|now apply kept_spec]). rewrite Ea in I. destruct I. }
    destruct (compose_ok _ Nl) as (r & H4).
    (* the overlay is on top *)
    assert (forall p, overlay = Some p -> open_overlay fs1 r p = Ok tt) as H5.
    { intros p ->. destruct K3 as [[K3 _]|(o & [= <-] & A & Fo)]; [discriminate|]. unfold open_overlay. rewrite Fo.
      destruct (Ov p A) as (_ & C & s & info & O & L & Rg & Lc).
      assert (root_lookup r (written [$".ratarmount.overlay.sqlite"]) 0 = Some (Some (written p), info)) as RL.
      { assert (realpath (written p) = p) as Ro by (destruct A as [[_ ->]|(_ & _ & ->)]; auto).
        destruct (open_all_at realpath open_source _ _ _ _ _ _ O _ _ H2) as (la & lb & -> & Fl).
        { rewrite Ro. destruct C as [C|C]; [now left|right; split; [reflexivity|]]. intros x I. apply filter_In in I as [I _]. now apply C. }
        rewrite with_control_split in H4.
        refine (compose_top _ _ (map snd la) (Some (written p), s) (map snd (lb ++ (if q_control q then [($"/", (None, control_layer))] else []))) [$".ratarmount.overlay.sqlite"] info _ _ H4 _ _ _).
        - repeat constructor; try discriminate. cbn. intuition discriminate.
        - discriminate.
        - rewrite map_app. reflexivity.
        - exact L.
        - intros s' I. apply in_map_iff in I as ([k s''] & <- & I). cbn [snd]. apply in_app_iff in I as [I|I].
          + destruct (Fl _ _ I) as (x & [] & _).
          + destruct (q_control q); [|destruct I]. destruct I as [[= <- <-]|[]]. cbn [snd]. now apply Lc. }
      change (slash :: database) with (written [$".ratarmount.overlay.sqlite"]). rewrite RL, Rg. cbn [andb].
      destruct (str_eqb_spec (written p) (written p)); [reflexivity|congruence]. }
    assert (exists fs3 made, finish fs1 q (realpath (q_point q)) overlay (with_control_layer control_layer no_subvolumes (q_control q) l) = Ok (r, fs3, made)) as (fs3 & made & H6).
    { unfold finish. rewrite Sb, H4.
      assert ((match overlay with None => Ok tt | Some p => open_overlay fs1 r p end) = Ok tt) as -> by (destruct overlay as [p|]; auto).
      destruct (fget fs1 (realpath (q_point q))) as [kd|] eqn:Ep; [eauto|].
      destruct (fget fs (realpath (q_point q))) as [kd|] eqn:Eq; [rewrite K1 in Ep by congruence; congruence|].
      destruct (Pn eq_refl) as [Pd _]. unfold make_folder. rewrite K1, Pd by congruence. eauto. }
    assert (prepare_log realpath fs1 (q_log q) = Ok fs1) as H3 by (unfold prepare_log; rewrite El; reflexivity).
    exists r. unfold Mounts_Model.init. cbv zeta. rewrite H1. fold paths. rewrite H2, H3, H6.
    destruct (fget fs (realpath (q_point q))) as [[|]|]; [|congruence|];
      (destruct (q_inputs q) as [|i0 is] eqn:Ei; [reflexivity|]; destruct (filter (kept realpath fs) (i0 :: is)) eqn:Ef; [|reflexivity];
       destruct G1 as [G1|(x & Ix & Gx)]; [discriminate|];
       assert (In x (filter (kept realpath fs) (i0 :: is))) as I by (apply filter_In; split; [exact Ix|now apply kept_spec]); rewrite Ef in I; destruct I).
  Qed.

  (** Side by side, the overlay is never on top. *)
  Lemma init_beside fs q o x sx : q_side_by_side q = true -> overlay_at realpath temporary (q_overlay q) o -> resolves realpath temporary ->
    o <> realpath (q_point q) -> In x (q_inputs q) -> given realpath fs x -> realpath x <> realpath (q_point q) -> open_source x = Ok sx ->
    (forall y s info, open_source y = Ok s -> s_lookup (snd s) $"/" 0 = Some info -> is_reg_mode (fi_mode info) = false) ->
    (forall info, s_lookup control_layer $"/" 0 = Some info -> is_reg_mode (fi_mode info) = false) ->
    (forall info, s_lookup no_subvolumes $"/" 0 = Some info -> is_reg_mode (fi_mode info) = false) ->
    exists e, fst (init fs q) = Err e.
  Proof.
    intros Sb A [R1 R2] No Ix Gx Nx Ox D1 D2 D3.
    destruct (init fs q) as [[r|e] rest] eqn:H; cbn [fst]; [|eauto]. exfalso.
    destruct (init_ok _ _ _ _ _ _ _ _ _ H) as (fs1 & ov & temp & l & fs2 & fs3 & made & H1 & H2 & _ & H4 & _).
    apply finish_ok in H4 as (H4 & H5 & _). rewrite Sb in H4.
    destruct (prepare_overlay_at _ _ _ _ _ _ _ H1) as [[E ->]|(o' & -> & A')].
    { destruct A as [[A _]|(A & _)]; rewrite E in A; [discriminate A|congruence]. }
    rewrite (overlay_at_fun _ _ _ _ _ A' A) in *. clear A' o'.
    assert (realpath (written o) = o) as Ro by (destruct A as [[_ ->]|(_ & _ & ->)]; auto).
    specialize (H5 _ eq_refl).
    set (good := fun s : opened U => forall info, s_lookup (snd s) $"/" 0 = Some info -> is_reg_mode (fi_mode info) = false).
    assert (Forall good (map snd (with_control_layer control_layer no_subvolumes (q_control q) l))) as G.
    { apply Forall_forall. intros s I. apply in_map_iff in I as ([k s0] & <- & I). cbn [snd]. apply with_control_in in I as [I|(_ & [Es|[_ Es]])].
      - destruct (open_all_from _ _ _ _ _ _ _ _ _ H2 I) as (y & _ & Oy & _). intros info. exact (D1 _ _ _ Oy).
      - subst s0. exact D2.
      - subst s0. exact D3. }
    (* at least two sources *)
    assert (exists e1 e2 l', with_control_layer control_layer no_subvolumes (q_control q) l = e1 :: e2 :: l') as (e1 & e2 & l' & E2).
    { assert (In x (filter (kept realpath fs) (q_inputs q))) as I by (apply filter_In; split; [exact Ix|now apply kept_spec]).
      apply in_split in I as (b1 & b2 & Eb). rewrite Eb, <- app_assoc in H2. cbn [app] in H2.
      assert (forall fsx pt paths p s, open_source p = Ok s -> realpath p <> pt -> In p paths -> forall bound m, open_all realpath open_source fsx pt bound paths = Ok m -> m <> []) as NE.
      { intros fsx pt paths p s O N I bound m Hm. apply in_split in I as (c1 & c2 & ->).
        destruct (open_all_at realpath open_source _ _ _ _ _ _ O _ _ Hm (or_introl N)) as (la & lb & -> & _). now destruct la. }
      assert (exists so, open_source (written o) = Ok so) as (so & Oo).
      { clear - H2 Ro No. revert H2. generalize false as b. revert l. set (all := b1 ++ x :: b2 ++ [written o]).
        assert (In (written o) all) as I by (unfold all; apply in_app_iff; right; right; apply in_app_iff; right; now left). clearbody all.
        induction all as [|y all IH]; intros l b H; [destruct I|]. cbn [open_all] in H. destruct I as [->|I].
        - rewrite Ro in H. destruct (loc_eqb_spec o (realpath (q_point q))) as [|_]; [contradiction|]. cbn [negb] in H.
          destruct (open_source (written o)); [eauto|discriminate].
        - destruct (negb _).
          + destruct (open_source y); cbn [bind] in H; [|discriminate]. destruct (open_all _ _ _ _ b all) as [l0|] eqn:E; [|discriminate]. exact (IH I _ _ E).
          + destruct b; [exact (IH I _ _ H)|]. destruct (open_source y); cbn [bind] in H; [|discriminate]. destruct (fget fs1 _); [|discriminate].
            destruct (open_all _ _ _ _ true all) as [l0|] eqn:E; [|discriminate]. exact (IH I _ _ E). }
      assert (2 <= length l) as L2.
      { clear - H2 Ox Nx Oo Ro No NE. revert H2. generalize false as b. revert l. induction b1 as [|y b1 IH]; intros l b H.
        - cbn [app open_all] in H. destruct (loc_eqb_spec (realpath x) (realpath (q_point q))) as [|_]; [contradiction|]. cbn [negb] in H. rewrite Ox in H. cbn [bind] in H.
          destruct (open_all _ _ _ _ b (b2 ++ [written o])) as [l0|] eqn:E; [|discriminate]. cbn [bind] in H. injection H as <-.
          assert (l0 <> []) as Z0.
          { refine (NE _ _ _ _ _ Oo _ _ _ _ E); [now rewrite Ro|apply in_app_iff; right; now left]. }
          destruct l0; [congruence|]. cbn. lia.
        - cbn [app open_all] in H. destruct (negb _).
          + destruct (open_source y); cbn [bind] in H; [|discriminate]. destruct (open_all _ _ _ _ b (b1 ++ x :: b2 ++ [written o])) as [l0|] eqn:E; [|discriminate].
            injection H as <-. specialize (IH _ _ E). cbn [length]. lia.
          + destruct b; [exact (IH _ _ H)|]. destruct (open_source y); cbn [bind] in H; [|discriminate]. destruct (fget fs1 _); [|discriminate].
            destruct (open_all _ _ _ _ true (b1 ++ x :: b2 ++ [written o])) as [l0|] eqn:E; [|discriminate]. injection H as <-. specialize (IH _ _ E). cbn [length]. lia. }
      unfold with_control_layer. destruct l as [|e1 [|e2 l']]; cbn in L2; [lia|lia|]. destruct (q_control q); cbn [app]; eauto. }
    rewrite E2 in *. unfold compose in H4. destruct e1 as [k1 s1]. destruct (create_multi_mount _) as [n|] eqn:M; cbn [bind] in H4; [|discriminate]. injection H4 as <-.
    pose proof (multi_good good _ _ G M) as GN.
    unfold open_overlay in H5. cbn [root_lookup] in H5.
    destruct (find_mount_source (slash :: database) n) as [[mp sub s|p]|] eqn:Fm.
    - apply (find_one_name good) in Fm as [-> Gs]; [| |exact GN].
      + destruct (s_lookup (snd s) $"/" 0) as [info|] eqn:Ls; cbn [option_map] in H5.
        * rewrite (Gs info Ls) in H5. cbn [andb] in H5. destruct (fst s); destruct (fget fs2 o) as [[|]|]; discriminate H5.
        * destruct (fget fs2 o) as [[|]|]; discriminate H5.
      + repeat split; try discriminate. cbn. intuition discriminate.
    - destruct (fget fs2 o) as [[|]|]; discriminate H5.
    - destruct (fget fs2 o) as [[|]|]; discriminate H5.
  Qed.
End Starting.
