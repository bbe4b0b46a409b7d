(** Property C60, the marks of nested archives: the automatic mounting of archives inside archives relies on them not to mount a nested
    archive a second time (automount.py 164-175). *)
From Coq Require Import Ascii String.
From Verif Require Import PyBase PyDict PyStr Path_Model Path_Spec FileInfo Strip_Model Index_Model Index_Spec Tar_Model Tar_Spec Tar_Proofs TarMark_Proofs Tar_Props.
Local Open Scope Z_scope.

(** Every nested archive above the recursion limit has, in the finished index, its row with the mark, and a folder with the mark at the place
    where it is mounted, whose mode allows to enter it for all who may read the archive. *)
Definition enterable (mode folder : Z) : Prop :=
  Z.land folder 61440 = 16384 /\
  forall who, In who [0; 3; 6] -> Z.testbit folder who = Z.testbit mode who || Z.testbit mode (who + 2) /\
    Z.testbit folder (who + 1) = Z.testbit mode (who + 1) /\ Z.testbit folder (who + 2) = Z.testbit mode (who + 2).
(** The mode of the folder made for an archive. *)
Lemma folder_enterable mode : enterable mode (folder_mode mode).
Proof.
  unfold folder_mode.
  assert (T : forall a, 0 <= a -> (Z.land mode (2 ^ a) =? 0) = negb (Z.testbit mode a)).
  { intros a Ha. destruct (Z.eqb_spec (Z.land mode (2 ^ a)) 0) as [E|E]; destruct (Z.testbit mode a) eqn:X; try reflexivity.
    - exfalso. apply (f_equal (fun z => Z.testbit z a)) in E. rewrite Z.land_spec, X, Z.pow2_bits_true, Z.bits_0 in E by exact Ha. discriminate.
    - exfalso. apply E. apply Z.bits_inj'. intros i Hi. rewrite Z.land_spec, Z.bits_0, Z.pow2_bits_eqb by exact Ha.
      destruct (Z.eqb_spec a i) as [<-|]; [now rewrite X|apply andb_false_r]. }
  change 256 with (2 ^ 8) at 1. change 32 with (2 ^ 5) at 1. change (Z.land mode 4) with (Z.land mode (2 ^ 2)). rewrite !T by lia. clear T.
  change 511 with (Z.ones 9). split.
  - apply Z.bits_inj'. intros i Hi. rewrite Z.land_spec, !Z.lor_spec, Z.land_spec.
    destruct (Z.ltb_spec i 9) as [L|L].
    + assert (Z.testbit 61440 i = false /\ Z.testbit 16384 i = false) as [-> ->]; [|apply andb_false_r].
      assert (i = 0 \/ i = 1 \/ i = 2 \/ i = 3 \/ i = 4 \/ i = 5 \/ i = 6 \/ i = 7 \/ i = 8) as C by lia. decompose [or] C; subst i; split; reflexivity.
    + rewrite Z.ones_spec_high by lia. rewrite andb_false_r. cbn [orb].
      assert (S : forall (b : bool) c, 0 <= c < 9 -> Z.testbit (if b then 0 else 2 ^ c) i = false).
      { intros [] c Hc; [apply Z.bits_0|]. rewrite Z.pow2_bits_false by lia. reflexivity. }
      rewrite (S _ 6), (S _ 3), (S _ 0) by lia. rewrite !orb_false_r. change S_IFDIR with 16384. rewrite <- Z.land_spec. reflexivity.
  - assert (W : forall i, 0 <= i < 9 -> Z.testbit (Z.lor (Z.lor (Z.lor (Z.lor (Z.land mode (Z.ones 9)) S_IFDIR) (if negb (Z.testbit mode 8) then 0 else 64))
                 (if negb (Z.testbit mode 5) then 0 else 8)) (if negb (Z.testbit mode 2) then 0 else 1)) i =
              Z.testbit mode i || ((i =? 6) && Z.testbit mode 8) || ((i =? 3) && Z.testbit mode 5) || ((i =? 0) && Z.testbit mode 2)).
    { intros i Hi. rewrite !Z.lor_spec, Z.land_spec, Z.ones_spec_low, andb_true_r by lia.
      assert (i = 0 \/ i = 1 \/ i = 2 \/ i = 3 \/ i = 4 \/ i = 5 \/ i = 6 \/ i = 7 \/ i = 8) as C by lia.
      assert (Z.testbit S_IFDIR i = false) as -> by (decompose [or] C; subst i; reflexivity). rewrite orb_false_r.
      assert (B : forall b : bool, Z.testbit (if negb b then 0 else 64) i = (i =? 6) && b /\ Z.testbit (if negb b then 0 else 8) i = (i =? 3) && b /\
                 Z.testbit (if negb b then 0 else 1) i = (i =? 0) && b) by (intros []; decompose [or] C; subst i; repeat split; reflexivity).
      now rewrite (proj1 (B _)), (proj1 (proj2 (B (Z.testbit mode 5)))), (proj2 (proj2 (B (Z.testbit mode 2)))). }
    intros who [<-|[<-|[<-|[]]]]; rewrite !W by lia; cbn [Z.eqb Z.add Pos.add Pos.succ Pos.eqb andb orb]; rewrite ?orb_false_r; repeat split; reflexivity.
Qed.

Theorem C60_nested_is_marked : forall (transform : str -> str) (strip : bool) (remount : option (str -> str)) (archive : list block) (levels : nat),
  forall prefix header m body,
  holds (mounted_at transform strip remount) levels [] 0 archive prefix header m body -> named_tar m ->
  let table := build (index_part transform strip remount false archive (S levels) 0 archive [] 0) in
  exists r folder, In r table /\ In folder table /\
    describes transform archive prefix header m body r /\ r_istar r = true /\
    (forall at_, mounted_at transform strip remount prefix m at_ -> full_path folder = at_) /\ r_istar folder = true /\
    enterable (full_mode m) (r_mode folder).
Proof.
  intros transform strip remount archive levels prefix header m body H N table. destruct (nested_rows transform strip remount archive levels prefix header m body H N) as (r & folder & A & B & C & D & E & F & G).
  exists r, folder. repeat (split; [assumption|]). rewrite G. apply folder_enterable.
Qed.
Print Assumptions C60_nested_is_marked.

(** Without recursion no row is marked. *)
Theorem C60_unmarked : forall (transform : str -> str) (strip : bool) (remount : option (str -> str)) ignore_zeros (archive : list block) r,
  In r (build (index_part transform strip remount ignore_zeros archive 1 0 archive [] 0)) -> r_istar r = false.
Proof. intros. eapply flat_unmarked. eassumption. Qed.
Print Assumptions C60_unmarked.

(** The nested archive of the sample. *)
Example C60_marked_example :
  holds (mounted_at (fun p => p) true None) 1 [] 0 sample_tar [] 2048 (plain $"b.TAR" "0" 2048 0 4) inner_tar /\ named_tar (plain $"b.TAR" "0" 2048 0 4) /\
  mounted_at (fun p => p) true None [] (plain $"b.TAR" "0" 2048 0 4) $"/b".
Proof.
  split; [|split].
  - apply (holds_here _ 0 [] 0 sample_tar _ 4 _ _ sample_layout). right. now left.
  - split; [now left|]. exists $"b", $".TAR". split; reflexivity.
  - exists $"/b". split; [|reflexivity]. right. split; [reflexivity|]. exists $".TAR". split; reflexivity.
Qed.
