(** Lemmas for Lib_Props.v. *)
From Verif Require Import PyBase MemFile_Spec Lib_Model Lib_Spec.
Local Open Scope Z_scope.

Section Lib.
  Context {A : Type}.
  Variable entries : list (list A).
  Variable cache_size : nat.
  Variable buffer_max : Z.
  Hypothesis Hmax : 0 < buffer_max.

  Definition content (i : nat) : list A := nth i entries [].

  Definition arch_ok (a : iarch) : Prop :=
    if ia_eof a then (length entries < ia_index a)%nat else (ia_index a <= length entries)%nat.

  Definition file_ok (f : lfile A) (i : nat) (pos : Z) : Prop :=
    (i < length entries)%nat /\ lf_index f = i /\ lf_size f = len (content i) /\
    exists a n p, lf_archive f = Some a /\ ia_index a = S i /\ ia_eof a = false /\ ia_pos a = lf_offset f + n /\
      lf_buffer f = Some n /\ lf_io f = Some (zslice (content i) (lf_offset f) n, p) /\
      0 <= p <= n /\ 0 < n /\ 0 <= lf_offset f /\ lf_offset f + n <= len (content i) /\ pos = lf_offset f + p.

  Lemma next_ok a : arch_ok a -> arch_ok (fst (next_entry entries a)).
  Proof.
    unfold arch_ok, next_entry. destruct (ia_eof a) eqn:E; intros H; [cbn [fst]; now rewrite E|].
    destruct (nth_error entries (ia_index a)) eqn:En; cbn [fst ia_eof ia_index].
    - assert (ia_index a < length entries)%nat by (apply nth_error_Some; congruence). lia.
    - apply nth_error_None in En. lia.
  Qed.

  Lemma find_ok i : (i < length entries)%nat -> forall fuel a, ia_eof a = false -> (ia_index a <= i)%nat -> (i - ia_index a < fuel)%nat ->
    find entries fuel a i = (mkIA (S i) 0 false, Ok true).
  Proof.
    intros Hi. induction fuel as [|fuel IH]; intros a E L F; [lia|]. cbn [find]. unfold next_entry. rewrite E.
    destruct (nth_error entries (ia_index a)) eqn:En; [|apply nth_error_None in En; lia].
    destruct (Nat.eqb_spec (ia_index a) i) as [->|N]; [reflexivity|]. apply IH; cbn [ia_eof ia_index]; [reflexivity|lia|lia].
  Qed.

  Lemma find_missing i : (length entries <= i)%nat -> forall fuel a, arch_ok a -> (length entries + 1 - ia_index a < fuel)%nat ->
    exists a', find entries fuel a i = (a', Ok false) /\ arch_ok a'.
  Proof.
    intros Hi. induction fuel as [|fuel IH]; intros a Ha F; [lia|]. cbn [find].
    pose proof (next_ok a Ha) as Hn. unfold next_entry in *. unfold arch_ok in Ha. destruct (ia_eof a) eqn:E; [eexists; split; [reflexivity|exact Hn]|].
    destruct (nth_error entries (ia_index a)) eqn:En; [|eexists; split; [reflexivity|exact Hn]].
    assert (ia_index a < length entries)%nat by (apply nth_error_Some; congruence).
    destruct (Nat.eqb_spec (ia_index a) i) as [E'|N]; [lia|]. apply IH; [exact Hn|cbn [ia_index]; lia].
  Qed.

  Lemma best_ok cache i a : best cache i = Some a -> In a cache /\ (ia_index a < i)%nat.
  Proof.
    revert a. induction cache as [|x cache IH]; intros a E; cbn [best] in E; [discriminate|].
    destruct (best cache i) as [b|] eqn:Eb.
    - destruct (Nat.ltb_spec (ia_index x) i); cbn [andb] in E; [destruct (Nat.leb (ia_index b) (ia_index x))|]; injection E as <-.
      + split; [now left|assumption].
      + destruct (IH b eq_refl). split; [now right|assumption].
      + destruct (IH b eq_refl). split; [now right|assumption].
    - destruct (Nat.ltb_spec (ia_index x) i); [|discriminate]. injection E as <-. split; [now left|assumption].
  Qed.

  Lemma remove_first_ok i cache : Forall arch_ok cache -> Forall arch_ok (remove_first i cache).
  Proof. induction 1 as [|x l H Hl IH]; cbn [remove_first]; [constructor|]. destruct (Nat.eqb _ _); [assumption|now constructor]. Qed.

  Lemma insert_ok cache a : Forall arch_ok cache -> arch_ok a -> Forall arch_ok (cache_insert cache_size cache a).
  Proof.
    intros Hc Ha. unfold cache_insert. set (l := cache ++ [a]). assert (Hl : Forall arch_ok l) by (apply Forall_app; split; [assumption|now constructor]).
    rewrite Forall_forall in *. intros x Hx. apply Hl. rewrite <- (firstn_skipn (length l - cache_size) l). apply in_app_iff. now right.
  Qed.

  Lemma close_ok cache f i pos : Forall arch_ok cache -> file_ok f i pos ->
    Forall arch_ok (fst (close cache_size cache f)) /\ lf_index (snd (close cache_size cache f)) = i /\ lf_size (snd (close cache_size cache f)) = len (content i) /\
    lf_io (snd (close cache_size cache f)) = None /\ lf_offset (snd (close cache_size cache f)) = 0 /\ lf_archive (snd (close cache_size cache f)) = None /\
    lf_buffer (snd (close cache_size cache f)) = None.
  Proof.
    intros Hc (Hi & E1 & E2 & a & n & p & Ea & Ei & Ee & _ & _ & Eo & _). unfold close. rewrite Ea, Eo. cbn [fst snd lf_index lf_size lf_io lf_offset lf_archive lf_buffer].
    split; [apply insert_ok; [assumption|]; unfold arch_ok; rewrite Ee, Ei; lia|]. repeat split; assumption.
  Qed.

  Lemma zslice_whole_len (l : list A) o n : 0 <= o -> 0 <= n -> o + n <= len l -> len (zslice l o n) = n.
  Proof. intros. rewrite len_zslice; lia. Qed.

  (** Reading into the buffer right after the entry was found. *)
  Lemma refill_first f i : (i < length entries)%nat -> content i <> [] -> lf_index f = i -> lf_size f = len (content i) -> lf_archive f = Some (mkIA (S i) 0 false) ->
    lf_buffer f = None -> lf_offset f = 0 -> exists f', refill entries buffer_max f = (f', None) /\ file_ok f' i 0.
  Proof.
    intros Hi Hc E1 E2 E3 E4 E5. assert (Hl : 0 < len (content i)) by (destruct (content i); [contradiction|rewrite len_cons; pose proof (len_nonneg l); lia]).
    unfold refill. rewrite E4, E5, E2, E3. destruct (Z.leb_spec (len (content i)) (0 + 0)); [lia|]. unfold read_data. cbn [ia_index ia_pos ia_eof pred].
    fold (content i). set (n := Z.min buffer_max (Z.max 0 (len (content i) - (0 + 0)))). assert (Hn : 0 < n <= len (content i)) by lia.
    rewrite (zslice_whole_len (content i) 0 n) by lia. rewrite Z.eqb_refl. eexists. split; [reflexivity|]. split; [assumption|]. cbn [lf_index lf_size lf_archive lf_buffer lf_offset lf_io].
    split; [assumption|]. split; [reflexivity|]. exists (mkIA (S i) (0 + n) false), n, 0. cbn [ia_index ia_eof ia_pos]. repeat split; try lia.
  Qed.

  (** Reading the next part into the buffer. *)
  Lemma refill_next f i pos : file_ok f i pos -> pos = lf_offset f + (match lf_buffer f with Some n => n | None => 0 end) ->
    (pos = len (content i) /\ refill entries buffer_max f = (f, None)) \/
    (pos < len (content i) /\ exists f' n, refill entries buffer_max f = (f', None) /\ file_ok f' i pos /\ lf_io f' = Some (zslice (content i) pos n, 0) /\ 0 < n /\ pos + n <= len (content i)).
  Proof.
    intros (Hi & E1 & E2 & a & n & p & Ea & Ei & Ee & Ep & Eb & Eo & Hp & Hn & H0 & Hle & Epos) E. rewrite Eb in E. unfold refill. rewrite Eb, E2, Ea.
    destruct (Z.leb_spec (len (content i)) (lf_offset f + n)) as [L|L]; [left; split; [lia|reflexivity]|right]. split; [lia|].
    unfold read_data. rewrite Ei, Ee, Ep. cbn [pred]. fold (content i). set (k := Z.min buffer_max (Z.max 0 (len (content i) - (lf_offset f + n)))). assert (Hk : 0 < k) by lia.
    rewrite (zslice_whole_len (content i) (lf_offset f + n) k) by lia. rewrite Z.eqb_refl. eexists. exists k. split; [reflexivity|]. rewrite <- E. split; [|split; [reflexivity|lia]].
    split; [assumption|]. cbn [lf_index lf_size lf_archive lf_buffer lf_offset lf_io]. split; [assumption|]. split; [reflexivity|].
    exists (mkIA (S i) (pos + k) false), k, 0. cbn [ia_index ia_eof ia_pos]. repeat split; try lia.
  Qed.

  Lemma reopen_ok cache f i : (i < length entries)%nat -> content i <> [] -> Forall arch_ok cache -> lf_index f = i -> lf_size f = len (content i) ->
    (forall a, lf_archive f = Some a -> arch_ok a) -> (lf_io f = None -> lf_offset f = 0) ->
    exists cache' f', reopen entries cache_size buffer_max cache f = (cache', f', None) /\ Forall arch_ok cache' /\ file_ok f' i 0.
  Proof.
    intros Hi Hc Hca E1 E2 Ha Ho. unfold reopen, close.
    set (cache1 := match lf_archive f with Some a => cache_insert cache_size cache a | None => cache end).
    assert (H1 : Forall arch_ok cache1) by (unfold cache1; destruct (lf_archive f); [apply insert_ok; auto|assumption]).
    cbn [lf_index lf_size lf_buffer lf_offset lf_io]. rewrite E1. destruct (take cache1 i) as [taken cache2] eqn:Et.
    assert (Hcase : Forall arch_ok cache2 /\ let a := match taken with Some a => a | None => ia_new end in ia_eof a = false /\ (ia_index a <= i)%nat).
    { unfold take in Et. destruct (best cache1 i) as [a|] eqn:Eb; injection Et as <- <-.
      - destruct (best_ok _ _ _ Eb) as [Hin Hlt]. split; [now apply remove_first_ok|]. rewrite Forall_forall in H1. specialize (H1 a Hin). unfold arch_ok in H1.
        cbv zeta. destruct (ia_eof a); [lia|]. split; [reflexivity|lia].
      - split; [assumption|]. cbn. split; [reflexivity|lia]. }
    destruct Hcase as [H2 Hcase]. cbv zeta in Hcase. destruct Hcase as [Ee Hle].
    rewrite (find_ok i Hi _ _ Ee Hle) by lia.
    match goal with |- context [refill _ _ ?g] => destruct (refill_first g i Hi Hc) as (f' & Er & Hf) end; cbn [lf_index lf_size lf_archive lf_buffer lf_offset lf_io]; try reflexivity; try assumption.
    { destruct (lf_io f); [reflexivity|now apply Ho]. }
    rewrite Er. exists cache2, f'. auto.
  Qed.

  Lemma reopen_missing cache i size : (length entries <= i)%nat -> Forall arch_ok cache ->
    exists cache' f', reopen entries cache_size buffer_max cache (mkLF i size None None 0 None) = (cache', f', Some ValueError) /\ Forall arch_ok (fst (close cache_size cache' f')).
  Proof.
    intros Hi Hca. unfold reopen, close. cbn [lf_index lf_size lf_archive lf_buffer lf_offset lf_io]. destruct (take cache i) as [taken cache2] eqn:Et.
    assert (Hcase : Forall arch_ok cache2 /\ arch_ok (match taken with Some a => a | None => ia_new end)).
    { unfold take in Et. destruct (best cache i) as [a|] eqn:Eb; injection Et as <- <-.
      - destruct (best_ok _ _ _ Eb) as [Hin Hlt]. split; [now apply remove_first_ok|]. rewrite Forall_forall in Hca. now apply Hca.
      - split; [assumption|]. unfold arch_ok, ia_new. cbn. lia. }
    destruct Hcase as [H2 H3]. destruct (find_missing i Hi (length entries + 2) _ H3 ltac:(lia)) as (a' & E & Ha'). rewrite E.
    exists cache2. eexists. split; [reflexivity|]. cbn [fst lf_archive]. now apply insert_ok.
  Qed.

  Lemma io_read_ok (l : list A) p size : 0 <= p -> size <> 0 ->
    exists d, io_read (l, p) size = ((l, p + len d), d) /\ d = zslice l p (len d) /\ (d = [] -> len l <= p) /\ (0 < size -> len d <= size) /\ p + len d <= Z.max p (len l).
  Proof.
    intros Hp Hs. unfold io_read. destruct (Z.ltb_spec size 0).
    - exists (zskip p l). split; [reflexivity|]. pose proof (len_zskip p l Hp) as L. pose proof (len_nonneg (zskip p l)). split; [|split; [|split; [lia|lia]]].
      + unfold zslice. now rewrite ztake_all by lia.
      + intros E. rewrite E, len_nil in L. lia.
    - exists (zslice l p size). split; [reflexivity|]. pose proof (len_zslice l p size Hp ltac:(lia)) as L. split; [|split; [|split; [lia|lia]]].
      + rewrite L. now apply zslice_clip.
      + intros E. rewrite E, len_nil in L. lia.
  Qed.

  Lemma read1_ok f i pos size : file_ok f i pos -> size <> 0 ->
    exists f' d, read1 entries buffer_max f size = (f', Ok d) /\ file_ok f' i (pos + len d) /\ d = zslice (content i) pos (len d) /\ (d = [] -> pos = len (content i)) /\ (0 < size -> len d <= size).
  Proof.
    intros Hf Hs. pose proof Hf as (Hi & E1 & E2 & a & n & p & Ea & Ei & Ee & Ep & Eb & Eo & Hp & Hn & H0 & Hle & Epos).
    assert (Ln : len (zslice (content i) (lf_offset f) n) = n) by (apply zslice_whole_len; lia).
    unfold read1. rewrite Eo. destruct (io_read_ok (zslice (content i) (lf_offset f) n) p size ltac:(lia) Hs) as (d & Ed & Hd & Hnil & Hsz & Hb). rewrite Ed. rewrite Ln in Hb, Hnil.
    assert (Sub : d = zslice (content i) pos (len d)).
    { rewrite Hd at 1. rewrite zslice_zslice by (pose proof (len_nonneg d); lia). f_equal; lia. }
    assert (Hf' : file_ok (with_io f (zslice (content i) (lf_offset f) n, p + len d)) i (pos + len d)).
    { split; [assumption|]. cbn [with_io lf_index lf_size lf_archive lf_buffer lf_offset lf_io]. split; [assumption|]. split; [assumption|].
      exists a, n, (p + len d). pose proof (len_nonneg d). repeat split; try assumption; lia. }
    destruct d as [|x d].
    - specialize (Hnil eq_refl). rewrite len_nil in Hf'. assert (p = n) by lia. subst p. rewrite !Z.add_0_r in Hf'.
      destruct (refill_next _ i pos Hf') as [[Hend Er]|(Hlt & f' & k & Er & Hf2 & Eio & Hk & Hkl)].
      { cbn [with_io lf_offset lf_buffer]. rewrite Eb. lia. }
      + replace (n + len []) with n by (rewrite len_nil; lia). rewrite Er. cbn [with_io lf_io].
        destruct (io_read_ok (zslice (content i) (lf_offset f) n) n size ltac:(lia) Hs) as (d & Ed' & Hd' & _ & _ & Hb'). rewrite Ed'. rewrite Ln in Hb'.
        assert (d = []) as -> by (apply len_zero; pose proof (len_nonneg d); lia). rewrite len_nil. exists (with_io (with_io f (zslice (content i) (lf_offset f) n, n)) (zslice (content i) (lf_offset f) n, n + 0)), [].
        split; [reflexivity|]. split; [|split; [now rewrite zslice_le0 by lia|split; [intros; lia|lia]]].
        change (len []) with 0. rewrite !Z.add_0_r. exact Hf'.
      + replace (n + len []) with n by (rewrite len_nil; lia). rewrite Er, Eio.
        destruct (io_read_ok (zslice (content i) pos k) 0 size ltac:(lia) Hs) as (d & Ed' & Hd' & Hn' & Hs' & Hb'). rewrite Ed'.
        pose proof Hf2 as (_ & F1 & F2 & a' & n' & p' & Ga & Gi & Ge & Gp & Gb & Go & Gp' & Gn & G0 & Gle & Gpos). rewrite Eio in Go. injection Go as Go Go'. subst p'.
        rewrite zslice_whole_len in Hb', Hn' by lia.
        assert (k = n').
        { assert (len (zslice (content i) pos k) = len (zslice (content i) (lf_offset f') n')) by now rewrite Go. rewrite !zslice_whole_len in H by lia. assumption. }
        subst n'. assert (lf_offset f' = pos) by lia.
        assert (Sub' : d = zslice (content i) pos (len d)).
        { rewrite Hd' at 1. rewrite zslice_zslice by (pose proof (len_nonneg d); lia). f_equal; lia. }
        exists (with_io f' (zslice (content i) pos k, 0 + len d)), d. split; [reflexivity|]. split; [|split; [exact Sub'|split; [|exact Hs']]].
        * split; [assumption|]. cbn [with_io lf_index lf_size lf_archive lf_buffer lf_offset lf_io]. split; [assumption|]. split; [assumption|].
          exists a', k, (0 + len d). pose proof (len_nonneg d). repeat split; try assumption; try lia. congruence.
        * intros ->. specialize (Hn' eq_refl). lia.
    - exists (with_io f (zslice (content i) (lf_offset f) n, p + len (x :: d))), (x :: d). repeat split; try assumption; try discriminate; apply Hf'.
  Qed.

  Lemma pos_range f i pos : file_ok f i pos -> 0 <= pos <= len (content i).
  Proof. intros (Hi & E1 & E2 & a & n & p & Ea & Ei & Ee & Ep & Eb & Eo & Hp & Hn & H0 & Hle & Epos). lia. Qed.

  Lemma read_loop_ok size : forall fuel f i pos result, file_ok f i pos -> len (content i) - pos + 1 < Z.of_nat fuel -> (0 <= size -> len result <= size) ->
    exists f' d, read_loop entries buffer_max fuel f size result = (f', Ok (result ++ d)) /\ file_ok f' i (pos + len d) /\
      d = (if size <? 0 then zskip pos (content i) else zslice (content i) pos (size - len result)).
  Proof.
    induction fuel as [|fuel IH]; intros f i pos result Hf F Hres; [pose proof (pos_range _ _ _ Hf); lia|]. pose proof (pos_range _ _ _ Hf) as Hr. cbn [read_loop].
    destruct ((size <? 0) || (len result <? size)) eqn:Ec.
    - set (s := if size <? 0 then size else size - len result). assert (Hs : s <> 0) by (unfold s; destruct (Z.ltb_spec size 0); [lia|]; cbn [orb] in Ec; apply Z.ltb_lt in Ec; lia).
      destruct (read1_ok f i pos s Hf Hs) as (f' & d & Er & Hf' & Hd & Hnil & Hsz). rewrite Er. destruct d as [|x d].
      + exists f', []. rewrite app_nil_r. split; [reflexivity|]. split; [exact Hf'|]. specialize (Hnil eq_refl). destruct (size <? 0); [rewrite zskip_all by lia; reflexivity|rewrite zslice_nil_ge by lia; reflexivity].
      + assert (Hp : 0 < len (x :: d)) by (rewrite len_cons; pose proof (len_nonneg d); lia). destruct (IH f' i (pos + len (x :: d)) (result ++ x :: d) Hf') as (f'' & d' & Er' & Hf'' & Hd').
        * lia.
        * intros H. rewrite len_app. unfold s in Hsz. destruct (Z.ltb_spec size 0); [lia|]. specialize (Hres H). assert (len (x :: d) <= size - len result) by (apply Hsz; lia). lia.
        * exists f'', ((x :: d) ++ d'). rewrite Er', app_assoc. split; [reflexivity|]. split; [rewrite len_app, Z.add_assoc; exact Hf''|]. rewrite Hd'. destruct (Z.ltb_spec size 0).
          -- rewrite Hd at 1. rewrite (Z.add_comm pos), <- zskip_zskip by lia. unfold zslice. rewrite ztake_zskip by lia. reflexivity.
          -- rewrite Hd at 1. rewrite len_app. assert (len (x :: d) <= size - len result) by (unfold s in Hsz; destruct (Z.ltb_spec size 0); [lia|]; apply Hsz; cbn [orb] in Ec; apply Z.ltb_lt in Ec; lia).
             replace (size - len result) with (len (x :: d) + (size - (len result + len (x :: d)))) by lia. rewrite zslice_add by lia. reflexivity.
    - exists f, []. rewrite app_nil_r. split; [reflexivity|]. rewrite len_nil, Z.add_0_r. split; [assumption|]. apply orb_false_iff in Ec as [E1 E2]. rewrite E1. apply Z.ltb_ge in E2. now rewrite zslice_le0 by lia.
  Qed.

  Lemma read_ok f i pos size : file_ok f i pos ->
    exists f' d, read entries buffer_max f size = (f', Ok d) /\ file_ok f' i (pos + len d) /\ d = (if size <? 0 then zskip pos (content i) else zslice (content i) pos size).
  Proof.
    intros Hf. unfold read. pose proof (pos_range _ _ _ Hf) as Hr. assert (Es : lf_size f = len (content i)) by (destruct Hf as (_ & _ & E & _); exact E).
    destruct (read_loop_ok size (Z.to_nat (lf_size f) + 2) f i pos [] Hf) as (f' & d & E & Hf' & Hd); [lia|change (len (@nil A)) with 0; lia|]. exists f', d. rewrite E. split; [reflexivity|]. split; [assumption|].
    rewrite Hd. change (len []) with 0. rewrite Z.sub_0_r. reflexivity.
  Qed.

  Lemma skip_loop_ok : forall fuel f i pos size, file_ok f i pos -> len (content i) - pos + 1 < Z.of_nat fuel ->
    exists f', skip_loop entries buffer_max fuel f size = (f', None) /\ file_ok f' i (Z.min (len (content i)) (pos + Z.max 0 size)).
  Proof.
    induction fuel as [|fuel IH]; intros f i pos size Hf F; [pose proof (pos_range _ _ _ Hf); lia|]. pose proof (pos_range _ _ _ Hf) as Hr. cbn [skip_loop].
    destruct (Z.ltb_spec 0 size).
    - destruct (read1_ok f i pos size Hf ltac:(lia)) as (f' & d & Er & Hf' & Hd & Hnil & Hsz). rewrite Er. destruct d as [|x d].
      + exists f'. split; [reflexivity|]. specialize (Hnil eq_refl). rewrite len_nil in Hf'. replace (Z.min (len (content i)) (pos + Z.max 0 size)) with (pos + 0) by lia. exact Hf'.
      + assert (Hp : 0 < len (x :: d)) by (rewrite len_cons; pose proof (len_nonneg d); lia). destruct (IH f' i (pos + len (x :: d)) (size - len (x :: d)) Hf' ltac:(lia)) as (f'' & E & Hf'').
        exists f''. split; [exact E|]. specialize (Hsz H). replace (pos + Z.max 0 size) with (pos + len (x :: d) + Z.max 0 (size - len (x :: d))) by lia. exact Hf''.
    - exists f. split; [reflexivity|]. replace (Z.min (len (content i)) (pos + Z.max 0 size)) with pos by lia. exact Hf.
  Qed.

  Lemma skip_ok f i pos size : file_ok f i pos -> exists f', skip entries buffer_max f size = (f', None) /\ file_ok f' i (Z.min (len (content i)) (pos + Z.max 0 size)).
  Proof.
    intros Hf. unfold skip. pose proof (pos_range _ _ _ Hf) as Hr. pose proof Hf as (_ & _ & Es & a & n & p & _ & _ & _ & _ & _ & Eo & _). rewrite Eo. apply skip_loop_ok; [assumption|]. lia.
  Qed.

  Lemma tell_ok f i pos : file_ok f i pos -> tell f = pos.
  Proof. intros (_ & _ & _ & a & n & p & _ & _ & _ & _ & _ & Eo & _ & _ & _ & _ & E). unfold tell. rewrite Eo. lia. Qed.

  Lemma seek_ok cache f i pos o w : Forall arch_ok cache -> file_ok f i pos -> content i <> [] ->
    exists cache' f' p, seek entries cache_size buffer_max cache f o w = (cache', f', Ok p) /\ Forall arch_ok cache' /\ file_ok f' i p /\
      p = Z.max 0 (Z.min (len (content i)) (target (content i) pos o (origin_of w))).
  Proof.
    intros Hca Hf Hc. pose proof (pos_range _ _ _ Hf) as Hr. pose proof Hf as (Hi & E1 & Es & a & n & p & Ea & Ei & Ee & Ep & Eb & Eo & Hp & Hn & H0 & Hle & Epos).
    unfold seek. rewrite Eo, (tell_ok f i pos Hf), Eb. set (t := match w with SeekSet => o | SeekCur => o + pos | SeekEnd => o + lf_size f end).
    assert (Et : target (content i) pos o (origin_of w) = t) by (unfold t, target, origin_of; rewrite Es; unfold len; destruct w; lia). rewrite Et.
    destruct (Z.leb_spec pos t).
    - destruct (skip_ok f i pos (t - pos) Hf) as (f' & Er & Hf'). rewrite Er. exists cache, f', (Z.min (len (content i)) (pos + Z.max 0 (t - pos))).
      rewrite (tell_ok _ _ _ Hf'). repeat split; try assumption; try apply Hf'. lia.
    - destruct (Z.leb_spec (lf_offset f) t); cbn [andb].
      + destruct (Z.ltb_spec t (lf_offset f + n)); [|lia]. assert (Hf' : file_ok (with_io f (zslice (content i) (lf_offset f) n, t - lf_offset f)) i t).
        { split; [assumption|]. cbn [with_io lf_index lf_size lf_archive lf_buffer lf_offset lf_io]. split; [assumption|]. split; [assumption|]. exists a, n, (t - lf_offset f). repeat split; try assumption; lia. }
        eexists. eexists. exists t. rewrite (tell_ok _ _ _ Hf'). repeat split; try assumption; try apply Hf'. lia.
      + destruct (reopen_ok cache f i Hi Hc Hca E1 Es) as (cache' & f1 & Er & Hca' & Hf1).
        { intros a' E'. assert (a' = a) as -> by congruence. unfold arch_ok. rewrite Ee, Ei. lia. }
        { rewrite Eo. discriminate. }
        rewrite Er. destruct (skip_ok f1 i 0 (Z.max 0 t) Hf1) as (f' & Ek & Hf'). rewrite Ek, (tell_ok _ _ _ Hf'). exists cache', f'. eexists. split; [reflexivity|]. split; [assumption|].
        split; [exact Hf'|]. lia.
  Qed.

  (** ** The world *)

  Definition closed_ok (f : lfile A) : Prop := lf_io f = None /\ lf_offset f = 0 /\ lf_archive f = None.
  Definition same (f : lfile A) (s : option (nat * Z)) : Prop :=
    match s with Some (i, pos) => file_ok f i pos /\ content i <> [] | None => closed_ok f end.
  Definition rel (w : world A) (files : open_files) : Prop := Forall arch_ok (w_cache w) /\ Forall2 same (w_files w) files.

  Lemma Forall2_nth {X Y} (R : X -> Y -> Prop) a b n : Forall2 R a b ->
    match nth_error a n, nth_error b n with Some x, Some y => R x y | None, None => True | _, _ => False end.
  Proof. intros H. revert n. induction H as [|x y a b Hxy H IH]; intros [|n]; cbn [nth_error]; auto. apply IH. Qed.

  Lemma Forall2_set (a : list (lfile A)) (b : open_files) n f s : Forall2 same a b -> same f s -> Forall2 same (replace n f a) (set_nth n s b).
  Proof. intros H Hs. revert n. induction H as [|x y a b Hxy H IH]; intros [|n]; cbn [replace set_nth]; constructor; auto. Qed.

  Lemma Forall2_len {X Y} (R : X -> Y -> Prop) a b : Forall2 R a b -> length a = length b.
  Proof. induction 1; cbn [length]; congruence. Qed.

  Lemma Forall2_snoc {X Y} (R : X -> Y -> Prop) a b x y : Forall2 R a b -> R x y -> Forall2 R (a ++ [x]) (b ++ [y]).
  Proof. induction 1; intros; cbn [app]; constructor; auto. Qed.

  Lemma replace_same (a : list (lfile A)) n f : nth_error a n = Some f -> replace n f a = a.
  Proof. revert n. induction a as [|x a IH]; intros [|n] E; cbn [nth_error replace] in *; try discriminate; [congruence|now rewrite IH]. Qed.

  Lemma step_ok w files e : rel w files -> opens_nonempty entries e ->
    rel (fst (step entries cache_size buffer_max w e)) (fst (answer_of entries files e)) /\ snd (step entries cache_size buffer_max w e) = snd (answer_of entries files e).
  Proof.
    intros [Hca Hfs] He. destruct e as [i size|h n|h o wh|h|h]; cbn [step answer_of].
    - cbn [opens_nonempty] in He. destruct (nth_error entries i) as [c|] eqn:En.
      + destruct (He c eq_refl) as [Hne ->]. assert (Hi : (i < length entries)%nat) by (apply nth_error_Some; congruence). assert (Ec : content i = c) by (unfold content; now apply nth_error_nth).
        rewrite <- Ec in Hne. destruct (reopen_ok (w_cache w) (mkLF i (Z.of_nat (length c)) None None 0 None) i Hi Hne Hca eq_refl) as (cache' & f' & Er & Hca' & Hf').
        { cbn [lf_size]. rewrite Ec. reflexivity. }
        { cbn [lf_archive]. discriminate. }
        { reflexivity. }
        rewrite Er. cbn [fst snd]. split; [|now rewrite (Forall2_len _ _ _ Hfs)]. split; [assumption|]. cbn [w_files]. apply Forall2_snoc; [assumption|]. split; assumption.
      + apply nth_error_None in En. destruct (reopen_missing (w_cache w) i size En Hca) as (cache' & f' & Er & Hca'). rewrite Er. cbn [fst snd]. split; [|reflexivity]. split; [assumption|]. exact Hfs.
    - pose proof (Forall2_nth _ _ _ h Hfs) as Hn. destruct (nth_error (w_files w) h) as [f|] eqn:Ef, (nth_error files h) as [s|] eqn:Es; try contradiction; [|split; [split; assumption|reflexivity]].
      destruct s as [[i pos]|].
      + destruct Hn as [Hf Hne]. destruct (read_ok f i pos n Hf) as (f' & d & Er & Hf' & Hd). rewrite Er. cbn [fst snd]. fold (content i).
        assert (Ed : d = (if n <? 0 then skipn (Z.to_nat pos) (content i) else bytes_at (content i) pos n)) by (rewrite Hd; reflexivity). rewrite <- Ed. split; [|reflexivity]. split; [assumption|]. cbn [w_files].
        apply Forall2_set; [assumption|]. split; [exact Hf'|assumption].
      + destruct Hn as (Eio & Eoff & Ear). unfold read. rewrite Nat.add_comm. cbn [Nat.add read_loop]. change (len (@nil A)) with 0. unfold read1. rewrite Eio.
        assert (Hw : forall r : reply A, rel (mkWorld (w_cache w) (replace h f (w_files w))) files /\ Some r = Some r) by (intros r; split; [split; [assumption|cbn [w_files]; now rewrite replace_same]|reflexivity]).
        destruct (Z.eqb_spec n 0) as [->|N]; [cbn [Z.ltb Z.compare orb fst snd]; apply Hw|]. replace ((n <? 0) || (0 <? n)) with true by lia. cbn [fst snd]. apply Hw.
    - pose proof (Forall2_nth _ _ _ h Hfs) as Hn. destruct (nth_error (w_files w) h) as [f|] eqn:Ef, (nth_error files h) as [s|] eqn:Es; try contradiction; [|split; [split; assumption|reflexivity]].
      destruct s as [[i pos]|].
      + destruct Hn as [Hf Hne]. destruct (seek_ok (w_cache w) f i pos o wh Hca Hf Hne) as (cache' & f' & p & Er & Hca' & Hf' & Hp). rewrite Er. cbn [fst snd]. fold (content i). unfold len in Hp. rewrite <- Hp.
        split; [|reflexivity]. split; [assumption|]. cbn [w_files]. apply Forall2_set; [assumption|]. split; assumption.
      + destruct Hn as (Eio & Eoff & Ear). unfold seek. rewrite Eio. cbn [fst snd]. split; [|reflexivity]. split; [assumption|]. cbn [w_files]. now rewrite replace_same.
    - pose proof (Forall2_nth _ _ _ h Hfs) as Hn. destruct (nth_error (w_files w) h) as [f|] eqn:Ef, (nth_error files h) as [s|] eqn:Es; try contradiction; [|split; [split; assumption|reflexivity]].
      destruct s as [[i pos]|]; cbn [fst snd]; (split; [split; assumption|]).
      + now rewrite (tell_ok f i pos (proj1 Hn)).
      + destruct Hn as (Eio & Eoff & Ear). unfold tell. rewrite Eio, Eoff. reflexivity.
    - pose proof (Forall2_nth _ _ _ h Hfs) as Hn. destruct (nth_error (w_files w) h) as [f|] eqn:Ef, (nth_error files h) as [s|] eqn:Es; try contradiction; [|split; [split; assumption|reflexivity]].
      assert (Hcl : Forall arch_ok (fst (close cache_size (w_cache w) f)) /\ closed_ok (snd (close cache_size (w_cache w) f))).
      { destruct s as [[i pos]|].
        - destruct (close_ok (w_cache w) f i pos Hca (proj1 Hn)) as (H1 & _ & _ & H2 & H3 & H4 & _). split; [assumption|]. split; [assumption|]. split; assumption.
        - destruct Hn as (Eio & Eoff & Ear). unfold close. rewrite Eio, Eoff, Ear. split; [assumption|]. split; [reflexivity|]. split; reflexivity. }
      destruct (close cache_size (w_cache w) f) as [cache' f']. cbn [fst snd] in *. destruct Hcl as [H1 H2]. split; [|reflexivity]. split; [assumption|]. cbn [w_files]. apply Forall2_set; assumption.
  Qed.

  Lemma run_ok es : forall w files, rel w files -> Forall (opens_nonempty entries) es -> run entries cache_size buffer_max w es = answers entries files es.
  Proof.
    induction es as [|e es IH]; intros w files Hr Hes; [reflexivity|]. inversion Hes as [|? ? He Hes']; subst. cbn [run answers].
    destruct (step_ok w files e Hr He) as [H1 H2]. destruct (step entries cache_size buffer_max w e) as [w' r], (answer_of entries files e) as [files' r']. cbn [fst snd] in *. subst r'. f_equal. now apply IH.
  Qed.
End Lib.

Section After.
  Context {A : Type}.
  Variable members : list (list A).
  Fixpoint files_after (files : open_files) (es : list event) : open_files :=
    match es with [] => files | e :: es => files_after (fst (answer_of members files e)) es end.
  Lemma answers_app es es' : forall files, answers members files (es ++ es') = answers members files es ++ answers members (files_after files es) es'.
  Proof. induction es as [|e es IH]; intros files; [reflexivity|]. cbn [app answers files_after]. destruct (answer_of members files e) as [files' r]. cbn [fst app]. now rewrite IH. Qed.
  Lemma set_nth_length {X} n (x : X) l : length (set_nth n x l) = length l.
  Proof. revert n. induction l as [|y l IH]; intros [|n]; cbn [set_nth length]; try reflexivity. now rewrite IH. Qed.
  Lemma handles_after es : forall files, (length files + number_of_handles (answers members files es))%nat = length (files_after files es).
  Proof.
    induction es as [|e es IH]; intros files; [cbn; lia|]. cbn [answers files_after]. destruct (answer_of members files e) as [files' r] eqn:E. cbn [fst].
    rewrite <- IH. unfold number_of_handles. cbn [filter].
    destruct e; cbn [answer_of] in E; repeat (match type of E with context [match ?x with _ => _ end] => destruct x eqn:? end);
      injection E as <- <-; rewrite ?app_length, ?set_nth_length; cbn [length]; lia.
  Qed.
  Lemma handles_files es : number_of_handles (answers members [] es) = length (files_after [] es).
  Proof. exact (handles_after es []). Qed.
End After.
