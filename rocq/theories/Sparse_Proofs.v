From Verif Require Import PyBase MemFile_Spec Stencil_Model Sparse_Model Sparse_Spec.
Local Open Scope Z_scope.

Section Proofs.
  Context {A : Type} (zero : A).
  Implicit Types (cs : pieces (A := A)).
  Definition zlen {X} (l : list X) : Z := Z.of_nat (length l).

  (** The stencils of the loop, as cut-outs. *)
  Definition cut (s : bool * Z * Z) : nat * Z * Z := let '(n, o, z) := s in ((if n : bool then 1%nat else 0%nat), o, z).

  Lemma covers_before from cs real p : ordered from cs real -> p < from -> (forall c, In c cs -> covers p c = false).
  Proof.
    revert from. induction cs as [|c r IH]; intros from H Hp x Hin; [destruct Hin|]. cbn [ordered] in H. destruct H as [[[E1 E2] H]|[H1 H]].
    - destruct Hin as [<-|Hin]; [|now apply (IH from)]. unfold covers. rewrite E1, E2. cbn [length]. destruct (0 <=? p) eqn:E; [|reflexivity]. cbn. apply Z.ltb_ge. apply Z.leb_le in E. lia.
    - destruct Hin as [<-|Hin].
      + unfold covers. replace (fst c <=? p) with false by (symmetry; apply Z.leb_gt; lia). reflexivity.
      + apply (IH (fst c + zlen (snd c))); [assumption| |assumption]. unfold zlen. lia.
  Qed.
  Lemma find_none {X} (f : X -> bool) l : (forall x, In x l -> f x = false) -> find f l = None.
  Proof. induction l as [|x l IH]; intros H; [reflexivity|]. cbn. rewrite (H x) by now left. apply IH. intros y Hy. apply H. now right. Qed.

  Lemma byte_before from cs real p : ordered from cs real -> p < from -> sparse_byte zero cs p = zero.
  Proof. intros H Hp. unfold sparse_byte. rewrite find_none; [reflexivity|]. now apply (covers_before from cs real). Qed.
  Lemma byte_skip c cs p : covers p c = false -> sparse_byte zero (c :: cs) p = sparse_byte zero cs p.
  Proof. intros H. unfold sparse_byte. cbn [find]. now rewrite H. Qed.

  Definition range cs (a b : Z) : list A := map (fun k => sparse_byte zero cs (Z.of_nat k)) (seq (Z.to_nat a) (Z.to_nat (b - a))).
  Lemma range_app cs a b c : 0 <= a <= b -> b <= c -> range cs a c = range cs a b ++ range cs b c.
  Proof.
    intros H1 H2. unfold range. rewrite <- map_app. f_equal. replace (Z.to_nat (c - a)) with (Z.to_nat (b - a) + Z.to_nat (c - b))%nat by lia.
    rewrite seq_app. do 2 f_equal. lia.
  Qed.
  Lemma range_ext cs cs' a b : 0 <= a -> (forall p, a <= p < b -> sparse_byte zero cs p = sparse_byte zero cs' p) -> range cs a b = range cs' a b.
  Proof. intros Ha H. unfold range. apply map_ext_in. intros k Hk. apply in_seq in Hk. apply H. lia. Qed.
  Lemma range_zero cs a b : 0 <= a -> (forall p, a <= p < b -> sparse_byte zero cs p = zero) -> range cs a b = repeat zero (Z.to_nat (b - a)).
  Proof.
    intros Ha H. unfold range. rewrite <- (seq_length (Z.to_nat (b - a)) (Z.to_nat a)) at 2.
    assert (G : forall l, (forall k, In k l -> sparse_byte zero cs (Z.of_nat k) = zero) -> map (fun k => sparse_byte zero cs (Z.of_nat k)) l = repeat zero (length l)).
    { induction l as [|k l IH]; intros Hl; [reflexivity|]. cbn [map length repeat]. rewrite (Hl k) by now left. f_equal. apply IH. intros; apply Hl; now right. }
    apply G. intros k Hk. apply in_seq in Hk. apply H. lia.
  Qed.
  Lemma range_piece o d cs : 0 <= o -> range ((o, d) :: cs) o (o + zlen d) = d.
  Proof.
    intros Ho. unfold range. replace (Z.to_nat (o + zlen d - o)) with (length d) by (unfold zlen; lia).
    assert (G : forall k, In k (seq (Z.to_nat o) (length d)) -> sparse_byte zero ((o, d) :: cs) (Z.of_nat k) = nth (k - Z.to_nat o) d zero).
    { intros k Hk. apply in_seq in Hk. unfold sparse_byte. cbn [find]. unfold covers. cbn [fst snd].
      replace (o <=? Z.of_nat k) with true by (symmetry; apply Z.leb_le; lia). replace (Z.of_nat k <? o + Z.of_nat (length d)) with true by (symmetry; apply Z.ltb_lt; lia). cbn [andb]. f_equal. lia. }
    rewrite (map_ext_in _ (fun k => nth (k - Z.to_nat o) d zero)) by exact G. clear. generalize (Z.to_nat o). intros s.
    apply nth_ext with (d := zero) (d' := zero); [now rewrite map_length, seq_length|]. intros n Hn. rewrite map_length, seq_length in Hn.
    rewrite (nth_indep _ zero (nth (0 - s) d zero)) by (now rewrite map_length, seq_length). rewrite (map_nth (fun k => nth (k - s) d zero)). rewrite seq_nth by assumption. f_equal. lia.
  Qed.

  Lemma bytes_at_zeros n m : 0 <= n <= m -> bytes_at (repeat zero (Z.to_nat m)) 0 n = repeat zero (Z.to_nat n).
  Proof.
    intros H. unfold bytes_at. cbn [Z.to_nat skipn]. replace (Z.to_nat m) with (Z.to_nat n + Z.to_nat (m - n))%nat by lia. rewrite repeat_app.
    rewrite firstn_app, repeat_length, Nat.sub_diag. cbn [firstn]. rewrite app_nil_r. rewrite <- (repeat_length zero (Z.to_nat n)) at 1. apply firstn_all.
  Qed.

  Lemma stored_cons archive base c cs : stored archive base (c :: cs) -> bytes_at archive base (zlen (snd c)) = snd c /\ stored archive (base + zlen (snd c)) cs.
  Proof.
    intros [Hb H]. cbn [map concat] in H. rewrite app_length in H. unfold bytes_at, zlen. rewrite Nat2Z.id. set (l := skipn (Z.to_nat base) archive) in *.
    assert (E1 : firstn (length (snd c)) l = snd c).
    { pose proof (f_equal (firstn (length (snd c))) H) as F. rewrite firstn_firstn in F. replace (Nat.min (length (snd c)) (length (snd c) + length (concat (map snd cs)))) with (length (snd c)) in F by lia.
      rewrite F, firstn_app, firstn_all, Nat.sub_diag. cbn. now rewrite app_nil_r. }
    split; [assumption|]. split; [lia|]. replace (Z.to_nat (base + Z.of_nat (length (snd c)))) with (Z.to_nat base + length (snd c))%nat by lia. replace (skipn (Z.to_nat base + length (snd c)) archive) with (skipn (length (snd c)) l).
    2:{ unfold l. clear. generalize (Z.to_nat base), (length (snd c)). intros a b. revert archive. induction a as [|a IH]; intros [|x ar]; cbn; auto. now destruct b. }
    rewrite <- (firstn_skipn (length (snd c)) l) in H. rewrite firstn_app, E1 in H.
    rewrite firstn_all2 with (l := snd c) in H by lia. apply app_inv_head in H. replace (length (snd c) + length (concat (map snd cs)) - length (snd c))%nat with (length (concat (map snd cs))) in H by lia. exact H.
  Qed.
  Lemma stored_inside archive base cs : stored archive base cs -> cs <> [] -> concat (map snd cs) <> [] -> base + zlen (concat (map snd cs)) <= zlen archive.
  Proof.
    intros [Hb H] _ Hne. apply (f_equal (@length A)) in H. rewrite firstn_length, skipn_length in H. unfold zlen.
    assert (length (concat (map snd cs)) <> 0)%nat by (destruct (concat (map snd cs)); [congruence|discriminate]). lia.
  Qed.

  Section Loop.
    Variable archive : list A.
    Variable zeros : Z.
    Definition files (n : nat) : list A := match n with O => archive | _ => repeat zero (Z.to_nat zeros) end.

    Lemma loop_ok cs : forall from base real, 0 <= from -> ordered from cs real -> stored archive base cs -> aligned base cs ->
      exists st last, sparse_loop from base (map_of cs) = Ok (st, last) /\ from <= last <= real /\
        Forall (fun h => 0 < h) (hole_sizes st) /\
        (Forall (fun h => h <= zeros) (hole_sizes st) -> joined files (map cut st) = range cs from last) /\
        Forall (fun s => let '(n, o, z) := s in 0 <= o /\ 0 <= z /\ (if n : bool then o = 0 else z = 0 \/ o + z <= zlen archive)) st /\
        (forall p, last <= p -> sparse_byte zero cs p = zero) /\
        (forall p, last <= p -> find (covers p) cs = None) /\
        (hole_sizes st = [] -> forall p, from <= p < last -> find (covers p) cs <> None).
    Proof.
      induction cs as [|[o d] r IH]; intros from base real Hf Ho Hs Ha.
      - exists [], from. cbn [ordered] in Ho. split; [reflexivity|]. split; [lia|]. split; [constructor|]. split; [|split; [constructor|split; [reflexivity|split; [reflexivity|intros; lia]]]].
        intros _. unfold range. rewrite Z.sub_diag. reflexivity.
      - destruct (stored_cons _ _ _ _ Hs) as [Hd Hs']. destruct Ha as [Hal Ha]. cbn [map_of map sparse_loop fst snd] in *. fold (zlen d) in *.
        destruct ((o =? 0) && (zlen d =? 0)) eqn:Epad.
        + apply Bool.andb_true_iff in Epad as [E1 E2]. apply Z.eqb_eq in E1, E2. assert (d = []) by (destruct d; [reflexivity|unfold zlen in E2; cbn in E2; lia]). subst.
          assert (Ho' : ordered from r real).
          { destruct Ho as [[_ Ho]|[H1 Ho]]; [assumption|]. cbn [fst snd length Z.of_nat] in *. replace from with (0 + 0) by lia. assumption. }
          change (zlen []) with 0 in *. rewrite Z.add_0_r in *.
          destruct (IH from base real Hf Ho' Hs' Ha) as (st & last & E & Hl & Hp & Hj & Hw & Hb & Hfd & Hh). exists st, last.
          assert (Sk : forall p, sparse_byte zero ((0, []) :: r) p = sparse_byte zero r p).
          { intros p. apply byte_skip. unfold covers. cbn [fst snd length Z.of_nat]. destruct (0 <=? p) eqn:X; [|reflexivity]. cbn. apply Z.ltb_ge. apply Z.leb_le in X. lia. }
          assert (Sf : forall p, find (covers p) ((0, []) :: r) = find (covers p) r).
          { intros p. cbn [find]. replace (covers p (0, [])) with false; [reflexivity|]. symmetry. unfold covers. cbn [fst snd length Z.of_nat]. destruct (0 <=? p) eqn:X; [|reflexivity]. cbn. apply Z.ltb_ge. apply Z.leb_le in X. lia. }
          split; [exact E|]. split; [assumption|]. split; [assumption|]. split; [|split; [assumption|split; [|split]]].
          * intros Hz. rewrite (Hj Hz). apply range_ext; [assumption|]. intros p _. symmetry. apply Sk.
          * intros p Hp'. rewrite Sk. now apply Hb.
          * intros p Hp'. rewrite Sf. now apply Hfd.
          * intros Hz p Hp'. rewrite Sf. now apply Hh.
        + destruct Ho as [[[P1 P2] _]|[H1 Ho]].
          { cbn [fst snd] in P1, P2. subst. discriminate. }
          cbn [fst snd] in *. fold (zlen d) in Ho. assert (Hzd : 0 <= zlen d) by (unfold zlen; lia).
          replace (o <? from) with false by (symmetry; apply Z.ltb_ge; lia).
          assert (Eal : negb (base mod block_size =? 0) && (0 <? zlen d) = false).
          { destruct Hal as [->|Hal]; [change (zlen []) with 0; apply Bool.andb_false_r|]. apply Z.mod_divide in Hal; [|discriminate]. unfold block_size. rewrite Hal. reflexivity. }
          rewrite Eal. destruct (IH (o + zlen d) (base + zlen d) real ltac:(lia) Ho Hs' Ha) as (st & last & E & Hl & Hp & Hj & Hw & Hb & Hfd & Hh). unfold map_of in E. rewrite E. cbn [bind].
          set (hole := if from <? o then [(true, 0, o - from)] else [] : list (bool * Z * Z)). exists (hole ++ (false, base, zlen d) :: st), last.
          assert (Eh : hole_sizes (hole ++ (false, base, zlen d) :: st) = (if from <? o then [o - from] else []) ++ hole_sizes st).
          { unfold hole_sizes, hole. rewrite filter_app, map_app. destruct (from <? o); reflexivity. }
          split; [reflexivity|]. split; [lia|]. split; [|split; [|split; [|split; [|split]]]].
          * rewrite Eh. apply Forall_app. split; [|assumption]. destruct (Z.ltb_spec from o); constructor; [lia|constructor].
          * rewrite Eh. intros Hz. apply Forall_app in Hz as [Hz1 Hz2]. unfold joined. rewrite !map_app, concat_app. cbn [map concat cut files].
            rewrite Hd. fold (joined files (map cut st)). rewrite (Hj Hz2).
            rewrite (range_app _ from o last), (range_app _ o (o + zlen d) last) by lia. rewrite range_piece by lia.
            f_equal; [|f_equal].
            -- rewrite range_zero; [|assumption|].
               ++ unfold hole. destruct (Z.ltb_spec from o) as [Hlt|Hge].
                  ** cbn [map concat cut files]. inversion Hz1; subst. rewrite bytes_at_zeros by lia. now rewrite app_nil_r.
                  ** replace (Z.to_nat (o - from)) with O by lia. reflexivity.
               ++ intros p Hpp. apply (byte_before o _ real); [|lia]. cbn [ordered fst snd]. right. split; [lia|assumption].
            -- apply range_ext; [lia|]. intros p Hpp. symmetry. apply byte_skip. unfold covers. cbn [fst snd]. fold (zlen d). replace (p <? o + zlen d) with false by (symmetry; apply Z.ltb_ge; lia). apply Bool.andb_false_r.
          * apply Forall_app. split.
            -- unfold hole. destruct (Z.ltb_spec from o); constructor; [|constructor]. split; [lia|]. split; [lia|reflexivity].
            -- constructor; [|assumption]. destruct Hs as [Hb0 Hs]. split; [assumption|]. split; [assumption|]. destruct d as [|x d]; [now left|right].
               cbn [map concat fst snd] in Hs. apply (f_equal (@length A)) in Hs. rewrite firstn_length, skipn_length, app_length in Hs. unfold zlen. cbn [length] in *. lia.
          * intros p Hpp. rewrite byte_skip; [now apply Hb|]. unfold covers. cbn [fst snd]. fold (zlen d). replace (p <? o + zlen d) with false by (symmetry; apply Z.ltb_ge; lia). apply Bool.andb_false_r.
          * intros p Hpp. cbn [find]. replace (covers p (o, d)) with false; [now apply Hfd|]. symmetry. unfold covers. cbn [fst snd]. fold (zlen d). replace (p <? o + zlen d) with false by (symmetry; apply Z.ltb_ge; lia). apply Bool.andb_false_r.
          * rewrite Eh. intros Hz p Hpp. destruct (Z.ltb_spec from o); [discriminate|]. cbn [find]. destruct (covers p (o, d)) eqn:Ec; [discriminate|]. apply (Hh Hz). split; [|lia].
            unfold covers in Ec. cbn [fst snd] in Ec. fold (zlen d) in Ec. replace (o <=? p) with true in Ec by (symmetry; apply Z.leb_le; lia). cbn in Ec. apply Z.ltb_ge in Ec. lia.
    Qed.
  End Loop.

  Lemma fold_max_le l : forall x, x <= fold_left Z.max l x /\ Forall (fun h => h <= fold_left Z.max l x) l.
  Proof.
    induction l as [|y l IH]; intros x; cbn [fold_left]; [split; [lia|constructor]|]. destruct (IH (Z.max x y)) as [H1 H2]. split; [lia|]. constructor; [lia|assumption].
  Qed.
  Lemma py_max_ok l : l <> [] -> exists m, py_max l = Ok m /\ Forall (fun h => h <= m) l.
  Proof. destruct l as [|x l]; [congruence|]. intros _. destruct (fold_max_le l x) as [H1 H2]. eexists. split; [reflexivity|]. constructor; assumption. Qed.

  Lemma open_ok archive base real cs : ordered 0 cs real -> stored archive base cs -> aligned base cs -> has_hole cs real ->
    exists zeros cuts, open_sparse base real (map_of cs) = Ok (zeros, cuts) /\
      Forall (inside (files archive zeros)) (filter (fun '(_, _, s) => 0 <? s) cuts) /\ Forall (fun '(f, o, n) => 0 <= o /\ 0 <= n) cuts /\
      joined (files archive zeros) cuts = sparse_content zero cs real.
  Proof.
    intros Ho Hs Ha Hh.
    assert (L : forall zeros, exists st last, sparse_loop 0 base (map_of cs) = Ok (st, last) /\ 0 <= last <= real /\
        Forall (fun h => 0 < h) (hole_sizes st) /\
        (Forall (fun h => h <= zeros) (hole_sizes st) -> joined (files archive zeros) (map cut st) = range cs 0 last) /\
        Forall (fun s => let '(n, o, z) := s in 0 <= o /\ 0 <= z /\ (if n : bool then o = 0 else z = 0 \/ o + z <= zlen archive)) st /\
        (forall p, last <= p -> sparse_byte zero cs p = zero) /\ (forall p, last <= p -> find (covers p) cs = None) /\
        (hole_sizes st = [] -> forall p, 0 <= p < last -> find (covers p) cs <> None)).
    { intros zeros. apply loop_ok; auto. lia. }
    destruct (L 0) as (st & last & E & Hl & Hp & _ & Hw & Hb & _ & Hnh). unfold open_sparse. rewrite E. cbn [bind].
    replace (real <? last) with false by (symmetry; apply Z.ltb_ge; lia).
    set (tail := if last <? real then [(true, 0, real - last)] else [] : list (bool * Z * Z)).
    assert (Et : hole_sizes (st ++ tail) = hole_sizes st ++ (if last <? real then [real - last] else [])).
    { unfold hole_sizes, tail. rewrite filter_app, map_app. destruct (last <? real); reflexivity. }
    assert (Hne : hole_sizes (st ++ tail) <> []).
    { rewrite Et. intros X. apply app_eq_nil in X as [X1 X2]. destruct (Z.ltb_spec last real); [discriminate|]. destruct Hh as (p & Hpr & Hpf). now apply (Hnh X1 p ltac:(lia)). }
    destruct (py_max_ok _ Hne) as (zeros & Em & Hz). rewrite Em. cbn [bind].
    destruct (L zeros) as (st' & last' & E' & _ & _ & Hj & _). rewrite E in E'. injection E' as <- <-.
    eexists zeros, _. split; [reflexivity|].
    assert (Ec : map (fun '(is_null, offset, size) => ((if is_null : bool then 1%nat else 0%nat), offset, size)) (st ++ tail) = map cut (st ++ tail)).
    { apply map_ext. intros [[n o] z]. reflexivity. }
    rewrite Ec. rewrite Et in Hz. apply Forall_app in Hz as [Hz1 Hz2].
    assert (W : Forall (fun s : bool * Z * Z => let '(n, o, z) := s in 0 <= o /\ 0 <= z /\ (if n then o = 0 /\ z <= zeros else z = 0 \/ o + z <= zlen archive)) (st ++ tail)).
    { apply Forall_app. split.
      - apply Forall_forall. intros [[n o] z] Hin. rewrite Forall_forall in Hw. pose proof (Hw _ Hin) as X. cbn in X. destruct n; [|assumption]. destruct X as (X1 & X2 & X3). split; [assumption|]. split; [assumption|]. split; [assumption|].
        rewrite Forall_forall in Hz1. apply Hz1. unfold hole_sizes. apply in_map_iff. exists (true, o, z). split; [reflexivity|]. apply filter_In. split; [assumption|reflexivity].
      - unfold tail. destruct (Z.ltb_spec last real); constructor; [|constructor]. inversion Hz2; subst. split; [lia|]. split; [lia|]. split; [reflexivity|assumption]. }
    split; [|split].
    - apply Forall_forall. intros [[f o] z] Hin. apply filter_In in Hin as [Hin Hpos]. apply Z.ltb_lt in Hpos. apply in_map_iff in Hin as ([[n o'] z'] & X & Hin). rewrite Forall_forall in W. specialize (W _ Hin). cbn in W.
      unfold cut in X. injection X as <- -> ->. unfold inside. destruct n; cbn [files]; [rewrite repeat_length|]; unfold zlen in *; lia.
    - apply Forall_forall. intros [[f o] z] Hin. apply in_map_iff in Hin as ([[n o'] z'] & X & Hin). rewrite Forall_forall in W. specialize (W _ Hin). cbn in W. unfold cut in X. injection X as <- -> ->. destruct n; lia.
    - unfold joined. rewrite !map_app, concat_app. fold (joined (files archive zeros) (map cut st)). rewrite (Hj Hz1).
      change (sparse_content zero cs real) with (map (fun k => sparse_byte zero cs (Z.of_nat k)) (seq 0 (Z.to_nat real))).
      replace (map (fun k => sparse_byte zero cs (Z.of_nat k)) (seq 0 (Z.to_nat real))) with (range cs 0 real) by (unfold range; now rewrite Z.sub_0_r).
      rewrite (range_app cs 0 last real) by lia. f_equal. unfold tail. destruct (Z.ltb_spec last real) as [Hlt|Hge].
      + cbn [map concat cut files]. inversion Hz2; subst. rewrite bytes_at_zeros by lia. rewrite app_nil_r. symmetry. apply range_zero; [lia|]. intros p Hpp. apply Hb. lia.
      + unfold range. replace (Z.to_nat (real - last)) with O by lia. reflexivity.
  Qed.
End Proofs.
