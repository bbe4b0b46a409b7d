(** Property C125: ext4 images are served as the file system in them. *)
From Coq Require Import Ascii String.
From Verif Require Import PyBase PyDict PyStr Path_Spec Path_Proofs FileInfo Ext_Model Ext_Spec.
Local Open Scope Z_scope.

Section C125.
  Variable inodes : Z -> res inode.
  Variable inode_at : str -> res inode.
  Variable decode : list Z -> res str.
  Variable encode : str -> list Z.
  Variable root : inode.
  Hypothesis Sound : sound inodes.
  Hypothesis Root : inodes (i_no root) = Ok root.
  Hypothesis Finds : finds inodes encode root inode_at.
  Hypothesis Code : encoding_ok encode decode.

  Lemma encode_inj a b : encode a = encode b -> a = b.
  Proof. destruct Code as (C & _). intros E. pose proof (proj2 (C a (encode b)) E) as A. pose proof (proj2 (C b (encode b)) eq_refl) as B. congruence. Qed.
  Lemma leads_inodes n loc t : inodes (i_no n) = Ok n -> leads inodes encode n loc t -> inodes (i_no t) = Ok t.
  Proof.
    intros H L. induction L as [n|n entries name no m loc t F I E L IH]; [exact H|]. apply IH. destruct (Sound no m E) as (-> & _). exact E.
  Qed.
  Lemma leads_app n a b t : leads inodes encode n (a ++ b) t <-> exists m, leads inodes encode n a m /\ leads inodes encode m b t.
  Proof.
    revert n. induction a as [|x a IH]; intros n; cbn [app].
    - split; [intros H; exists n; split; [constructor|exact H]|]. intros (m & H & L). inversion H; subst. exact L.
    - split.
      + intros H. inversion H as [|? entries ? no m ? ? F I E L]; subst. apply IH in L as (m' & L1 & L2). exists m'. split; [econstructor; eauto|exact L2].
      + intros (m' & H & L2). inversion H as [|? entries ? no m ? ? F I E L]; subst. econstructor; eauto. apply IH. eauto.
  Qed.
  Lemma leads_unique n loc t u : inodes (i_no n) = Ok n -> leads inodes encode n loc t -> leads inodes encode n loc u -> t = u.
  Proof.
    intros H L. revert u. induction L as [n|n entries name no m loc t F I E L IH]; intros u M; [now inversion M|].
    inversion M as [|? entries' ? no' m' ? ? F' I' E' L']; subst. rewrite F in F'. injection F' as <-.
    destruct (Sound _ _ H) as (_ & S). destruct (S _ F) as (Nd & _).
    assert (no' = no) as ->.
    { clear - Nd I I'. induction entries as [|[b k] r IHr]; [destruct I|]. cbn [map fst] in Nd. inversion Nd as [|? ? N1 N2]; subst.
      destruct I as [I|I], I' as [I'|I']; [congruence| | |now apply IHr].
      - injection I as -> ->. exfalso. apply N1. now apply (in_map fst) in I'.
      - injection I' as -> ->. exfalso. apply N1. now apply (in_map fst) in I. }
    rewrite E in E'. injection E' as <-. apply IH; [|exact L']. destruct (Sound no m E) as (-> & _). exact E.
  Qed.

  (** What is there is found with its attributes, can be opened, and nothing else is found. *)
  Theorem C125_lookup_and_open :
    forall loc v, Forall proper_name loc ->
    (forall t, leads inodes encode root loc t ->
       exists i, ext_lookup inode_at (written loc) v = Ok (Some i) /\ ext_exists inode_at (written loc) = Ok true /\ ext_open inodes i = i_data t /\
         fi_size i = i_size t /\ fi_mtime i = i_mtime t /\ fi_mode i = i_mode t /\ fi_uid i = i_uid t /\ fi_gid i = i_gid t) /\
    ((forall t, ~ leads inodes encode root loc t) -> ext_lookup inode_at (written loc) v = Ok None /\ ext_exists inode_at (written loc) = Ok false).
  Proof.
    intros loc v P. destruct (Finds loc P) as (F & N). unfold ext_lookup, ext_exists. split.
    - intros t L. rewrite (F t L). exists (ext_info t). split; [reflexivity|]. split; [reflexivity|]. split; [|repeat split].
      unfold ext_open. cbn. now rewrite (leads_inodes root loc t Root L).
    - intros H. rewrite (N H). split; reflexivity.
  Qed.

  Lemma dots_spec b : dots b = true <-> b = [46] \/ b = [46; 46].
  Proof.
    split; [|now intros [-> | ->]]. unfold dots. intros H.
    destruct b as [|x b]; [discriminate|]. destruct (Z.eq_dec x 46) as [-> |N].
    - destruct b as [|y b]; [now left|]. destruct (Z.eq_dec y 46) as [-> |N]; [destruct b; [now right|discriminate]|]. exfalso. revert H. destruct y as [|y|y]; try discriminate. do 6 (try destruct y as [y|y|]; try discriminate). contradiction.
    - exfalso. revert H. destruct x as [|x|x]; try discriminate. do 6 (try destruct x as [x|x|]; try discriminate). contradiction.
  Qed.
  Lemma entries_spec {V} (value : inode -> V) entries : forall d,
    readable_names decode entries -> NoDup (map fst entries) -> (forall b no, In (b, no) entries -> exists t, inodes no = Ok t) ->
    exists d', ext_entries inodes decode value entries d = Ok d' /\
      forall s, s <> $"." -> s <> $".." -> dget str_eqb d' s = match List.find (fun e => if list_eq_dec Z.eq_dec (fst e) (encode s) then true else false) entries with
        | Some (_, no) => match inodes no with Ok t => Some (value t) | Err _ => dget str_eqb d s end | None => dget str_eqb d s end /\
      (forall k, In k (dkeys d') -> In k (dkeys d) \/ exists b no, In (b, no) entries /\ dots b = false /\ decode b = Ok k).
  Proof.
    destruct Code as (C & C1 & C2).
    induction entries as [|[b no] r IH]; intros d R Nd X; cbn [ext_entries List.find].
    - exists d. split; [reflexivity|]. intros s _ _. split; [reflexivity|]. intros k I. now left.
    - cbn [map fst] in Nd. inversion Nd as [|? ? Nd1 Nd2]; subst.
      assert (R' : readable_names decode r) by (intros x y I; apply (R x y); now right). assert (X' : forall x y, In (x, y) r -> exists t, inodes y = Ok t) by (intros x y I; apply (X x y); now right).
      destruct (dots b) eqn:D.
      + destruct (IH d R' Nd2 X') as (d' & E & H). exists d'. split; [exact E|]. intros s S1 S2. destruct (H s S1 S2) as (H1 & H2). split.
        * cbn [fst]. destruct (list_eq_dec Z.eq_dec b (encode s)) as [-> |_]; [|exact H1]. exfalso. apply dots_spec in D. destruct D as [D|D]; [apply S1|apply S2]; apply encode_inj; congruence.
        * intros k I. destruct (H2 k I) as [J|(x & y & J & K)]; [now left|]. right. exists x, y. split; [now right|exact K].
      + destruct (R b no) as (s0 & E0); [now left|]. rewrite E0. destruct (X b no) as (t0 & Et); [now left|]. rewrite Et.
        destruct (IH (dset str_eqb d s0 (value t0)) R' Nd2 X') as (d' & E & H). exists d'. split; [exact E|]. intros s S1 S2. destruct (H s S1 S2) as (H1 & H2). apply C in E0. split.
        * cbn [fst]. destruct (list_eq_dec Z.eq_dec b (encode s)) as [Eb|Nb].
          -- assert (s0 = s) as -> by (apply encode_inj; congruence). rewrite Et. rewrite H1.
             assert (List.find (fun e => if list_eq_dec Z.eq_dec (fst e) (encode s) then true else false) r = None) as ->.
             { destruct (List.find _ r) as [[x y]|] eqn:Q; [|reflexivity]. exfalso. apply find_some in Q as (Q1 & Q2). cbn [fst] in Q2. destruct (list_eq_dec Z.eq_dec x (encode s)) as [-> |]; [|discriminate].
               apply Nd1. rewrite Eb. now apply (in_map fst) in Q1. }
             apply dget_dset_same. apply str_eqb_spec.
          -- rewrite H1. assert (dget str_eqb (dset str_eqb d s0 (value t0)) s = dget str_eqb d s) as ->; [|reflexivity].
             apply dget_dset_other; [apply str_eqb_spec|]. intros ->. now apply Nb.
        * intros k I. destruct (H2 k I) as [J|(x & y & J & K)]; [|right; exists x, y; split; [now right|exact K]].
          apply In_dkeys_dset in J as [-> |J]; [|now left|apply str_eqb_spec]. right. exists b, no. split; [now left|]. split; [exact D|]. now apply C.
  Qed.

  Lemma written_snoc_leads loc s t u : leads inodes encode root loc t ->
    (leads inodes encode root (loc ++ [s]) u <-> exists entries no, i_folder t = Some entries /\ In (encode s, no) entries /\ inodes no = Ok u).
  Proof.
    intros L. rewrite leads_app. split.
    - intros (m & L1 & L2). assert (m = t) as -> by exact (leads_unique root loc m t Root L1 L). inversion L2 as [|? entries ? no m' ? ? F I E L']; subst. inversion L'; subst. eauto.
    - intros (entries & no & F & I & E). exists t. split; [exact L|]. econstructor; eauto. constructor.
  Qed.
  Lemma list_value {V} (value : inode -> V) loc t entries :
    Forall proper_name loc -> leads inodes encode root loc t -> i_folder t = Some entries -> readable_names decode entries ->
    exists d, ext_list_with inode_at inodes decode value (written loc) = Ok (Some d) /\
      (forall s, proper_name s -> forall x, dget str_eqb d s = Some x <-> exists u, leads inodes encode root (loc ++ [s]) u /\ x = value u) /\
      (forall k, In k (dkeys d) -> k <> $"." /\ k <> $".." /\ exists no, In (encode k, no) entries).
  Proof.
    intros P L F R. destruct (Finds loc P) as (Fd & _). unfold ext_list_with. rewrite (Fd t L), F.
    pose proof (leads_inodes root loc t Root L) as It. destruct (Sound _ _ It) as (_ & S). destruct (S _ F) as (Nd & X).
    destruct (entries_spec value entries [] R Nd X) as (d & E & H). rewrite E. exists d. split; [reflexivity|]. destruct Code as (C & C1 & C2). split.
    - intros s Ps x. destruct Ps as (_ & S1 & S2 & _).
      destruct (H s S1 S2) as (-> & _). split.
      + destruct (List.find _ entries) as [[b no]|] eqn:Q; [|discriminate]. apply find_some in Q as (Q1 & Q2). cbn [fst] in Q2. destruct (list_eq_dec Z.eq_dec b (encode s)) as [-> |]; [|discriminate].
        destruct (X _ _ Q1) as (u & Eu). rewrite Eu. intros G. injection G as <-. exists u. split; [|reflexivity]. apply (written_snoc_leads loc s t u L). eauto.
      + intros (u & Lu & ->). apply (written_snoc_leads loc s t u L) in Lu as (entries' & no & F' & I & Eu). rewrite F in F'. injection F' as <-.
        destruct (List.find _ entries) as [[b no']|] eqn:Q.
        * apply find_some in Q as (Q1 & Q2). cbn [fst] in Q2. destruct (list_eq_dec Z.eq_dec b (encode s)) as [-> |]; [|discriminate].
          assert (U : leads inodes encode root (loc ++ [s]) u) by (apply (written_snoc_leads loc s t u L); eauto). destruct (X _ _ Q1) as (u' & Eu'). rewrite Eu'.
          assert (U' : leads inodes encode root (loc ++ [s]) u') by (apply (written_snoc_leads loc s t u' L); eauto). now rewrite (leads_unique root _ _ _ Root U' U).
        * exfalso. pose proof (find_none _ _ Q _ I) as W. cbn [fst] in W. destruct (list_eq_dec Z.eq_dec (encode s) (encode s)); [discriminate|contradiction].
    - intros k I. destruct (H [] ltac:(discriminate) ltac:(discriminate)) as (_ & K). destruct (K k I) as [[]|(b & no & J & D & Dk)]. apply C in Dk. subst b.
      split; [|split; [|now exists no]]; intros ->; [rewrite C1 in D|rewrite C2 in D]; discriminate.
  Qed.

  (** A listing names what is found under the folder, with the attributes and the mode that looking it up gives, and neither "." nor "..". *)
  Theorem C125_list :
    forall loc t entries v, Forall proper_name loc -> leads inodes encode root loc t -> i_folder t = Some entries -> readable_names decode entries ->
    exists d m, ext_list inode_at inodes decode (written loc) = Ok (Some d) /\ ext_list_mode inode_at inodes decode (written loc) = Ok (Some m) /\
      (forall name, proper_name name ->
         (forall i, dget str_eqb d name = Some i <-> ext_lookup inode_at (written (loc ++ [name])) v = Ok (Some i)) /\
         dget str_eqb m name = match dget str_eqb d name with Some i => Some (fi_mode i) | None => None end) /\
      (forall k, In k (dkeys d) \/ In k (dkeys m) -> k <> $"." /\ k <> $".." /\ exists no, In (encode k, no) entries).
  Proof.
    intros loc t entries v P L F R.
    destruct (list_value ext_info loc t entries P L F R) as (d & E & H & K). destruct (list_value i_mode loc t entries P L F R) as (m & Em & Hm & Km).
    exists d, m. split; [exact E|]. split; [exact Em|]. split; [|intros k [I|I]; [exact (K k I)|exact (Km k I)]].
    intros name Pn. assert (Pl : Forall proper_name (loc ++ [name])) by (apply Forall_app; split; [exact P|now constructor]). split.
    - intros i. rewrite (H name Pn i). destruct (Finds _ Pl) as (F1 & F2). unfold ext_lookup. split.
      + intros (u & Lu & ->). now rewrite (F1 u Lu).
      + intros G. destruct (inode_at (written (loc ++ [name]))) as [u|x] eqn:Q.
        * injection G as <-. exists u. split; [|reflexivity].
          destruct (list_value (fun n => n) loc t entries P L F R) as (d' & _ & H' & _). destruct (dget str_eqb d' name) as [u'|] eqn:D'.
          -- apply (H' name Pn) in D' as (w & Lw & ->). assert (W : Ok u = Ok w) by (now apply F1). injection W as ->. exact Lw.
          -- assert (W : Ok u = Err FileNotFound) by (apply F2; intros w Lw; assert (dget str_eqb d' name = Some w) by (apply (H' name Pn); eauto); congruence). discriminate.
        * destruct x; discriminate.
    - destruct (dget str_eqb d name) as [i|] eqn:D.
      + apply (H name Pn) in D as (u & Lu & ->). apply (Hm name Pn). exists u. split; [exact Lu|reflexivity].
      + destruct (dget str_eqb m name) as [x|] eqn:M; [|reflexivity]. apply (Hm name Pn) in M as (u & Lu & _). assert (dget str_eqb d name = Some (ext_info u)) by (apply (H name Pn); eauto). congruence.
  Qed.

  (** What is not a folder has no listing. *)
  Theorem C125_no_list :
    forall loc t, Forall proper_name loc -> leads inodes encode root loc t -> i_folder t = None ->
    ext_list inode_at inodes decode (written loc) = Ok None /\ ext_list_mode inode_at inodes decode (written loc) = Ok None.
  Proof. intros loc t P L N. destruct (Finds loc P) as (F1 & F2). unfold ext_list, ext_list_mode, ext_list_with. rewrite (F1 t L), N. split; reflexivity. Qed.

  (** What does not exist has no listing, but it has one version all the same. *)
  Theorem C125_versions_refuted :
    forall loc, Forall proper_name loc -> (forall t, ~ leads inodes encode root loc t) ->
    ext_lookup inode_at (written loc) 0 = Ok None /\ ext_list inode_at inodes decode (written loc) = Ok None /\ ext_list_mode inode_at inodes decode (written loc) = Ok None /\ ext_versions (written loc) = 1.
  Proof. intros loc P H. destruct (Finds loc P) as (_ & F). unfold ext_lookup, ext_list, ext_list_mode, ext_list_with. rewrite (F H). repeat split; reflexivity. Qed.

  (** A link never has a target. *)
  Theorem C125_link_target_refuted : forall path v i, ext_lookup inode_at path v = Ok (Some i) -> fi_linkname i = [].
  Proof. intros path v i H. unfold ext_lookup in H. destruct (inode_at _) as [n|x]; [|destruct x; discriminate]. now injection H as <-. Qed.

  (** One name that is not text keeps the whole folder from being listed. *)
  Theorem C125_undecodable_refuted :
    forall loc t entries b no, Forall proper_name loc -> leads inodes encode root loc t -> i_folder t = Some entries ->
    In (b, no) entries -> b <> [46] -> b <> [46; 46] -> (forall s, encode s <> b) ->
    (exists x, ext_list inode_at inodes decode (written loc) = Err x) /\ exists x, ext_list_mode inode_at inodes decode (written loc) = Err x.
  Proof.
    intros loc t entries b no P L F I N1 N2 Bad. destruct (Finds loc P) as (F1 & _).
    assert (forall V (value : inode -> V), exists x, ext_list_with inode_at inodes decode value (written loc) = Err x) as G; [|split; apply G].
    intros V value. unfold ext_list_with. rewrite (F1 t L), F.
    assert (exists x, ext_entries inodes decode value entries [] = Err x) as (x & ->); [|eauto].
    generalize (@nil (str * V)) as d. clear F. destruct Code as (C & _). induction entries as [|[c k] r IH]; [destruct I|]. intros d. cbn [ext_entries].
    destruct I as [I|I].
    - injection I as -> ->. destruct (dots b) eqn:D; [apply dots_spec in D; tauto|]. destruct (decode b) as [s|x] eqn:Dc; [apply C in Dc; now apply Bad in Dc|eauto].
    - destruct (dots c); [now apply IH|]. destruct (decode c); [|eauto]. destruct (inodes k); [|eauto]. now apply IH.
  Qed.
End C125.

(** Asking whether a file is an ext4 image leaves the position where it was. *)
Theorem C125_check : forall installed volume position,
  snd (is_ext4_image installed volume position) = position /\ (fst (is_ext4_image installed volume position) = true <-> installed = true /\ fst (volume position) = true).
Proof. intros [|] volume position; cbn; split; try reflexivity; split; try tauto; try discriminate. Qed.

(** An image with a folder, a file and a link in it, and a folder with a name that is not text satisfies the hypotheses.  Names are
    encoded as in UTF-8. *)
Definition ex_code (c : ascii) : list Z := let n := Z.of_nat (nat_of_ascii c) in if n <? 128 then [n] else [192 + n / 64; 128 + n mod 64].
Definition ex_encode (s : str) : list Z := flat_map ex_code s.
Fixpoint ex_decode (b : list Z) : res str :=
  match b with
  | [] => Ok []
  | x :: r =>
      if (0 <=? x) && (x <? 128) then match ex_decode r with Ok s => Ok (ascii_of_nat (Z.to_nat x) :: s) | Err e => Err e end
      else match r with
           | y :: r' => if ((x =? 194) || (x =? 195)) && (128 <=? y) && (y <? 192)
                        then match ex_decode r' with Ok s => Ok (ascii_of_nat (Z.to_nat ((x - 192) * 64 + (y - 128))) :: s) | Err e => Err e end else Err UnicodeError
           | [] => Err UnicodeError
           end
  end.
Lemma ex_code_inv c r : ex_decode (ex_code c ++ r) = match ex_decode r with Ok s => Ok (c :: s) | Err e => Err e end.
Proof. destruct c as [[|] [|] [|] [|] [|] [|] [|] [|]]; reflexivity. Qed.
Lemma ex_ascii n : 0 <= n < 256 -> Z.of_nat (nat_of_ascii (ascii_of_nat (Z.to_nat n))) = n.
Proof. intros H. rewrite nat_ascii_embedding; [lia|]. apply Nat2Z.inj_lt. rewrite Z2Nat.id by lia. cbn. lia. Qed.
Lemma ex_encoding : encoding_ok ex_encode ex_decode.
Proof.
  split; [|split; reflexivity]. intros s b. split.
  - remember (List.length b) as n eqn:Hn. assert (Hle : (List.length b <= n)%nat) by lia. clear Hn. revert b s Hle. induction n as [|n IH]; intros b s Hle H.
    + destruct b; [|cbn in Hle; lia]. now injection H as <-.
    + destruct b as [|x r]; [now injection H as <-|]. cbn [ex_decode] in H. cbn [List.length] in Hle. destruct ((0 <=? x) && (x <? 128)) eqn:B.
      * destruct (ex_decode r) as [s'|] eqn:E; [|discriminate]. injection H as <-. apply IH in E; [|lia]. cbn [ex_encode flat_map]. change (flat_map ex_code s') with (ex_encode s'). rewrite E.
        apply andb_true_iff in B as (B1 & B2). unfold ex_code. rewrite ex_ascii by lia. cbv zeta. rewrite B2. reflexivity.
      * destruct r as [|y r]; [discriminate|]. destruct (((x =? 194) || (x =? 195)) && (128 <=? y) && (y <? 192)) eqn:D; [|discriminate].
        destruct (ex_decode r) as [s'|] eqn:E; [|discriminate]. injection H as <-. cbn [List.length] in Hle. apply IH in E; [|lia]. cbn [ex_encode flat_map]. change (flat_map ex_code s') with (ex_encode s'). rewrite E.
        apply andb_true_iff in D as (D1 & D3). apply andb_true_iff in D1 as (D1 & D2). apply orb_true_iff in D1. unfold ex_code.
        assert (x = 194 \/ x = 195) by lia. rewrite ex_ascii by lia. cbv zeta. destruct (Z.ltb_spec ((x - 192) * 64 + (y - 128)) 128); [lia|].
        rewrite Z.div_add_l by lia. rewrite (Z.add_comm ((x - 192) * 64)), Z.mod_add by lia. rewrite Z.div_small, Z.mod_small by lia. cbn [app]. f_equal; [lia|]. f_equal. lia.
  - intros <-. induction s as [|c s IH]; [reflexivity|]. cbn [ex_encode flat_map]. rewrite ex_code_inv. change (flat_map ex_code s) with (ex_encode s). now rewrite IH.
Qed.
Definition ex_root := mkInode 2 4096 0 16877 0 0 (Some [([46], 2); ([46; 46], 2); ([100], 11); ([195; 164], 14)]) (Err EISDIR).
Definition ex_dir := mkInode 11 4096 7 16877 0 0 (Some [([46], 11); ([46; 46], 2); ([102], 12); ([108], 13)]) (Err EISDIR).
Definition ex_file := mkInode 12 3 8 33188 1000 100 None (Ok [1; 2; 3]).
Definition ex_link := mkInode 13 1 9 41471 1000 100 None (Ok [102]).
Definition ex_bad := mkInode 14 4096 7 16877 0 0 (Some [([46], 14); ([46; 46], 2); ([255], 12)]) (Err EISDIR).
Definition ex_inodes (no : Z) : res inode :=
  if no =? 2 then Ok ex_root else if no =? 11 then Ok ex_dir else if no =? 12 then Ok ex_file else if no =? 13 then Ok ex_link else if no =? 14 then Ok ex_bad else Err KeyError.
Lemma ex_sound : sound ex_inodes.
Proof.
  intros no n. unfold ex_inodes. repeat (match goal with |- (if ?a =? ?b then _ else _) = _ -> _ => destruct (Z.eqb_spec a b) as [-> |] end; [intros G; injection G as <-; split; [reflexivity|]; cbn; intros entries Q; try discriminate Q|]); try discriminate;
    injection Q as <-; (split; [cbn; repeat constructor; cbn; intuition discriminate|]); cbn; intros b m I; repeat (destruct I as [I|I]; [injection I as <- <-; cbn; eauto|]); destruct I.
Qed.
(** The walk of the module, from name to name. *)
Fixpoint ex_walk (n : inode) (loc : list str) : res inode :=
  match loc with
  | [] => Ok n
  | x :: r => match i_folder n with
              | None => Err FileNotFound
              | Some entries => match List.find (fun e => if list_eq_dec Z.eq_dec (fst e) (ex_encode x) then true else false) entries with
                                | Some e => match ex_inodes (snd e) with Ok m => ex_walk m r | Err _ => Err FileNotFound end
                                | None => Err FileNotFound
                                end
              end
  end.
Definition ex_at (p : str) : res inode := ex_walk ex_root (filter (fun x => negb (str_eqb x [])) (split slash p)).
Lemma ex_walk_leads loc : forall n, ex_inodes (i_no n) = Ok n ->
  (forall t, leads ex_inodes ex_encode n loc t -> ex_walk n loc = Ok t) /\ ((forall t, ~ leads ex_inodes ex_encode n loc t) -> ex_walk n loc = Err FileNotFound).
Proof.
  induction loc as [|x r IH]; intros n N; cbn [ex_walk].
  - split; [intros t L; now inversion L|]. intros H. exfalso. apply (H n). constructor.
  - split.
    + intros t L. inversion L as [|? entries ? no m ? ? F I G L']; subst. rewrite F. destruct (List.find _ entries) as [[b k]|] eqn:Q.
      * apply find_some in Q as (Q1 & Q2). cbn [fst] in Q2. destruct (list_eq_dec Z.eq_dec b (ex_encode x)) as [-> |]; [|discriminate]. cbn [snd].
        destruct (ex_sound _ _ N) as (_ & S). destruct (S _ F) as (_ & X). destruct (X _ _ Q1) as (u & Eu). rewrite Eu.
        assert (L1 : leads ex_inodes ex_encode n [x] m) by exact (leads_below _ _ n entries x no m [] m F I G (leads_here _ _ m)). assert (L2 : leads ex_inodes ex_encode n [x] u) by exact (leads_below _ _ n entries x k u [] u F Q1 Eu (leads_here _ _ u)).
        rewrite (leads_unique ex_inodes ex_encode ex_sound n [x] u m N L2 L1). apply IH; [|exact L']. destruct (ex_sound no m G) as (-> & _). exact G.
      * exfalso. pose proof (find_none _ _ Q _ I) as W. cbn [fst] in W. destruct (list_eq_dec Z.eq_dec (ex_encode x) (ex_encode x)); [discriminate|contradiction].
    + intros H. destruct (i_folder n) as [entries|] eqn:F; [|reflexivity]. destruct (List.find _ entries) as [[b k]|] eqn:Q; [|reflexivity].
      apply find_some in Q as (Q1 & Q2). cbn [fst] in Q2. destruct (list_eq_dec Z.eq_dec b (ex_encode x)) as [-> |]; [|discriminate]. cbn [snd]. destruct (ex_inodes k) as [m|] eqn:G; [|reflexivity].
      apply IH; [destruct (ex_sound k m G) as (-> & _); exact G|]. intros t L. apply (H t). econstructor; eauto.
Qed.
Lemma ex_finds : finds ex_inodes ex_encode ex_root ex_at.
Proof.
  intros loc P. unfold ex_at. assert (filter (fun x => negb (str_eqb x [])) (split slash (written loc)) = loc) as ->; [|now apply ex_walk_leads].
  assert (F : filter (fun x => negb (str_eqb x [])) loc = loc).
  { clear - P. induction P as [|x l Hx _ IH]; [reflexivity|]. cbn [filter]. destruct (str_eqb_spec x []) as [-> |]; [now destruct Hx|]. cbn [negb]. now rewrite IH. }
  destruct loc as [|x l]; [reflexivity|]. unfold written. change (slash :: join $"/" (x :: l)) with (join [slash] ([] :: x :: l)).
  rewrite (split_join slash); [exact F|discriminate|]. constructor; [intros []|now apply proper_no_slash].
Qed.
Example C125_case :
  sound ex_inodes /\ ex_inodes (i_no ex_root) = Ok ex_root /\ finds ex_inodes ex_encode ex_root ex_at /\ encoding_ok ex_encode ex_decode /\
  leads ex_inodes ex_encode ex_root [$"d"] ex_dir /\ readable_names ex_decode [([46], 11); ([46; 46], 2); ([102], 12); ([108], 13)] /\
  leads ex_inodes ex_encode ex_root [$"d"; $"l"] ex_link /\ leads ex_inodes ex_encode ex_root [[ascii_of_nat 228]] ex_bad /\ (forall s, ex_encode s <> [255]) /\
  ext_list ex_at ex_inodes ex_decode $"/d" = Ok (Some [($"f", mkInfo 3 8 33188 [] 1000 100 [12]); ($"l", mkInfo 1 9 41471 [] 1000 100 [13])]) /\
  ext_list ex_at ex_inodes ex_decode (written [[ascii_of_nat 228]]) = Err UnicodeError /\
  ext_lookup ex_at $"/d/l" 0 = Ok (Some (mkInfo 1 9 41471 [] 1000 100 [13])) /\ ext_lookup ex_at $"/d/m" 0 = Ok None.
Proof.
  split; [exact ex_sound|]. split; [reflexivity|]. split; [exact ex_finds|]. split; [exact ex_encoding|].
  split; [apply (leads_below _ _ ex_root _ _ 11 ex_dir [] ex_dir eq_refl); [cbn; tauto|reflexivity|constructor]|].
  split. { intros b no I. cbn in I. repeat (destruct I as [I|I]; [injection I as <- <-; eexists; reflexivity|]). destruct I. }
  split. { apply (leads_below _ _ ex_root _ _ 11 ex_dir [$"l"] ex_link eq_refl); [cbn; tauto|reflexivity|]. apply (leads_below _ _ ex_dir _ _ 13 ex_link [] ex_link eq_refl); [cbn; tauto|reflexivity|constructor]. }
  split; [apply (leads_below _ _ ex_root _ _ 14 ex_bad [] ex_bad eq_refl); [cbn; tauto|reflexivity|constructor]|].
  split. { intros s H. apply (proj1 ex_encoding s [255]) in H. discriminate. }
  repeat split.
Qed.

Print Assumptions C125_lookup_and_open.
Print Assumptions C125_list.
Print Assumptions C125_no_list.
Print Assumptions C125_versions_refuted.
Print Assumptions C125_link_target_refuted.
Print Assumptions C125_undecodable_refuted.
Print Assumptions C125_check.
