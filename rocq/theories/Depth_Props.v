(** C117: how deep archives inside of archives are shown. *)
From Coq Require Import Ascii String.
From Verif Require Import PyBase PyStr Depth_Model.
Local Open Scope Z_scope.

(** The specification: with [n] layers to be opened.  Decompressing is a layer and a TAR archive is one; a compressed TAR archive is shown as
    one folder if there are two layers left for it, else as a folder with the TAR archive in it. *)
Fixpoint view (n : nat) (a : node) : shown :=
  match n with
  | O => File
  | S n1 =>
      match a with
      | Leaf => File
      | Tar ms => Folder (map (fun p => (fst p, view n1 (snd p))) ms)
      | Comp name (Tar ms) => match n1 with O => Folder [(name, File)] | S n2 => Folder (map (fun p => (fst p, view n2 (snd p))) ms) end
      | Comp name b => Folder [(name, view n1 b)]
      end
  end.
(** The number of layers, and archives without TAR archives that are empty. *)
Fixpoint layers (a : node) : nat :=
  match a with Leaf => O | Tar ms => S (fold_right (fun p k => Nat.max (layers (snd p)) k) O ms) | Comp _ b => S (layers b) end.
Inductive full : node -> Prop :=
| full_leaf : full Leaf
| full_tar ms : ms <> [] -> (forall p, In p ms -> full (snd p)) -> full (Tar ms)
| full_comp name b : full b -> full (Comp name b).

Lemma layers_in (ms : list (str * node)) p : In p ms -> (layers (snd p) <= fold_right (fun p k => Nat.max (layers (snd p)) k) O ms)%nat.
Proof. induction ms as [|q ms IH]; intros []; cbn; [subst; lia|]. specialize (IH H). lia. Qed.
Lemma map_eq {A B C} (f : A -> C) (g : B -> C) (h : A -> B) (l : list A) : (forall x, In x l -> f x = g (h x)) -> map f l = map g (map h l).
Proof. intros H. rewrite map_map. now apply map_ext_in. Qed.

(** With more layers allowed than there are nothing changes. *)
Lemma view_enough : forall n m a, (layers a <= n)%nat -> (layers a <= m)%nat -> view n a = view m a.
Proof.
  induction n as [n IH] using lt_wf_ind. intros m a L1 L2. destruct a as [|ms|name b].
  - destruct n, m; reflexivity.
  - cbn [layers] in *. destruct n as [|n]; [lia|]. destruct m as [|m]; [lia|]. cbn [view]. f_equal. apply map_ext_in. intros p I. f_equal. pose proof (layers_in ms p I). apply IH; lia.
  - cbn [layers] in *. destruct n as [|n]; [lia|]. destruct m as [|m]; [lia|]. destruct b as [|ms|name' b].
    + cbn [view]. destruct n, m; reflexivity.
    + cbn [layers] in *. destruct n as [|n]; [lia|]. destruct m as [|m]; [lia|]. cbn [view]. f_equal. apply map_ext_in. intros p I. f_equal. pose proof (layers_in ms p I). apply IH; lia.
    + change (view (S n) (Comp name (Comp name' b))) with (Folder [(name, view n (Comp name' b))]). change (view (S m) (Comp name (Comp name' b))) with (Folder [(name, view m (Comp name' b))]).
      do 3 f_equal. apply IH; lia.
Qed.

Section Depth.
  Variable maxsize : Z.
  Hypothesis maxsize_pos : 0 <= maxsize.


  (** TAR archives only, without further mounting. *)
  Lemma plain_last max a : plain (index_member max max a) = File.
  Proof. destruct a; cbn [index_member]; rewrite ?Z.ltb_irrefl; reflexivity. Qed.

  Lemma members_view max recursive : forall fuel max0 m rd a, full a -> (2 * layers a < fuel)%nat -> 0 <= m -> 0 <= rd <= max0 -> max0 = max - m ->
    automount maxsize max recursive fuel m (index_member max0 rd a) = view (Z.to_nat (max0 - rd)) a.
  Proof.
    induction fuel as [fuel IH] using lt_wf_ind. intros max0 m rd a F L M R E. destruct fuel as [|fuel]; [lia|]. destruct a as [|ms|name b].
    - cbn. destruct (max <? m + rd + 1); destruct (Z.to_nat (max0 - rd)); reflexivity.
    - cbn [index_member]. inversion F as [|ms' N A|]; subst ms'. destruct (Z.ltb_spec rd max0) as [K|K].
      + replace (Z.to_nat (max0 - rd)) with (S (Z.to_nat (max0 - (rd + 1)))) by lia. cbn [view automount]. destruct (Z.ltb_spec max (m + (rd + 1) + 1)) as [K2|K2].
        * cbn [plain]. f_equal. rewrite map_map. apply map_ext_in. intros p I. cbn [fst snd]. f_equal. replace (rd + 1) with max0 by lia. rewrite plain_last, Z.sub_diag. reflexivity.
        * f_equal. unfold each. rewrite map_map. apply map_ext_in. intros p I. cbn [fst snd]. f_equal. pose proof (layers_in ms p I). cbn [layers] in L. apply IH; [lia|now apply A|lia|lia|lia|lia].
      + assert (rd = max0) as -> by lia. rewrite Z.sub_diag. cbn [automount view Z.to_nat]. destruct (Z.ltb_spec max (m + max0 + 1)); [reflexivity|lia].
    - cbn [index_member automount]. destruct (Z.ltb_spec max (m + rd + 1)) as [K|K].
      { replace (max0 - rd) with 0 by lia. reflexivity. }
      inversion F as [| |n' b' F']; subst n' b'. set (n := Z.to_nat (max0 - rd)). destruct n as [|n1] eqn:En; [unfold n in En; lia|]. assert (Z.of_nat n1 = max - (m + rd + 1)) as En1 by (unfold n in En; lia).
      rewrite Z.max_r by lia. cbn [open_tar determine]. rewrite andb_false_r.
      assert (forall l, l <> [] -> match l with [] => Ok [(name, IFile (0 + 1 - 1) b)] | _ :: _ => Ok l end = Ok l :> res (list (str * item))) as NE by (intros [|]; [congruence|reflexivity]).
      destruct b as [|ms|name' b].
      + cbn [view each map fst snd]. destruct (max <? m + rd + 1 + 0 + 1).
        * cbn. now destruct n1.
        * cbn [each map fst snd]. destruct fuel; [cbn [layers] in L; lia|]. cbn. destruct (max <? _); now destruct n1.
      + cbn [view]. inversion F' as [|ms' N A|]; subst ms'. destruct (Z.ltb_spec (max - (m + rd + 1)) (0 + 1)) as [K2|K2].
        * destruct n1 as [|n2]; [|lia]. destruct (Z.ltb_spec max (m + rd + 1 + 0 + 1)); [reflexivity|lia].
        * destruct n1 as [|n2]; [lia|]. destruct (each _ ms) as [|q l] eqn:El; [destruct ms; [congruence|discriminate El]|]. rewrite <- El. clear El q l. destruct (Z.ltb_spec max (m + rd + 1 + 0 + 1)) as [K3|K3]; [lia|].
          f_equal. unfold each. rewrite map_map. apply map_ext_in. intros p I. cbn [fst snd]. f_equal. pose proof (layers_in ms p I). cbn [layers] in L.
          replace n2 with (Z.to_nat (max - (m + rd + 1) - (0 + 1))) by lia. apply IH; [lia|now apply A|lia|lia|lia|lia].
      + change (view (S n1) (Comp name (Comp name' b))) with (Folder [(name, view n1 (Comp name' b))]). f_equal. destruct (Z.ltb_spec max (m + rd + 1 + 0 + 1)) as [K3|K3].
        * destruct n1 as [|n2]; [reflexivity|lia].
        * cbn [each map fst snd]. do 2 f_equal. cbn [layers] in L. replace n1 with (Z.to_nat (max - (m + rd + 1) - 0)) by lia.
          apply (IH fuel ltac:(lia) (max - (m + rd + 1)) (m + rd + 1) 0 (Comp name' b) F' ltac:(cbn [layers]; lia) ltac:(lia) ltac:(lia) eq_refl).
  Qed.

  Lemma deep recursive n a fuel : 0 < n -> full a -> a <> Leaf -> (2 * layers a < fuel)%nat -> forall depth, determine maxsize recursive depth = n -> (recursive = true \/ depth <> None) ->
    exists l, mount maxsize fuel recursive depth a = Ok l /\ Folder l = view (Z.to_nat n + 1) a.
  Proof.
    intros P F NL L depth D ND. unfold mount. rewrite D. destruct (Z.ltb_spec 0 n) as [_|]; [|lia]. destruct (Z.ltb_spec n (0 + 0 + 1)) as [|_]; [lia|].
    replace (Z.to_nat n + 1)%nat with (S (Z.to_nat n)) by lia. destruct a as [|ms|name b]; [congruence| |].
    - cbn [open_tar]. rewrite D. inversion F as [|ms' N A|]; subst ms'. destruct (Z.ltb_spec n (-1 + 1)); [lia|]. destruct (each _ ms) as [|q l] eqn:El; [destruct ms; [congruence|discriminate El]|]. rewrite <- El. clear El q l.
      cbn [bind view]. eexists. split; [reflexivity|]. f_equal. unfold each. rewrite map_map. apply map_ext_in. intros p I. cbn [fst snd]. f_equal. pose proof (layers_in ms p I). cbn [layers] in L.
      rewrite members_view; [f_equal; lia|now apply A|lia|lia|lia|lia].
    - cbn [open_tar]. assert (negb recursive && match depth with None => true | _ => false end = false) as -> by (destruct recursive, depth; destruct ND; try reflexivity; congruence). rewrite D.
      inversion F as [| |n' b' F']; subst n' b'. destruct b as [|ms|name' b].
      + cbn [bind each map fst snd]. eexists. split; [reflexivity|]. cbn [view]. destruct fuel; [cbn in L; lia|]. cbn. destruct (n <? _); now destruct (Z.to_nat n).
      + inversion F' as [|ms' N A|]; subst ms'. destruct (Z.ltb_spec n (0 + 1)) as [|_]; [lia|]. destruct (each _ ms) as [|q l] eqn:El; [destruct ms; [congruence|discriminate El]|]. rewrite <- El. clear El q l.
        cbn [bind view]. destruct (Z.to_nat n) as [|n2] eqn:En; [lia|]. eexists. split; [reflexivity|]. f_equal. unfold each. rewrite map_map. apply map_ext_in. intros p I. cbn [fst snd]. f_equal. pose proof (layers_in ms p I). cbn [layers] in L.
        rewrite members_view; [f_equal; lia|now apply A|lia|lia|lia|lia].
      + cbn [bind each map fst snd]. eexists. split; [reflexivity|]. change (view (S (Z.to_nat n)) (Comp name (Comp name' b))) with (Folder [(name, view (Z.to_nat n) (Comp name' b))]). do 3 f_equal.
        cbn [layers] in L. replace (Z.to_nat n) with (Z.to_nat (n - 0)) by lia. apply (members_view n recursive fuel n 0 0 (Comp name' b) F'); cbn [layers]; lia.
  Qed.

  (** --recursion-depth N, from 0 on, with or without --recursive: the outermost layer and N more are opened. *)
  Theorem C117_depth recursive n a fuel : 0 <= n -> full a -> a <> Leaf -> (2 * layers a < fuel)%nat ->
    exists l, mount maxsize fuel recursive (Some n) a = Ok l /\ Folder l = view (Z.to_nat n + 1) a.
  Proof.
    intros P F NL L. destruct (Z.eq_dec n 0) as [-> |N]; [|apply deep; auto; [lia|right; discriminate]].
    unfold mount. cbn [determine]. change (0 <? 0) with false. cbv iota. destruct a as [|ms|name b]; [congruence| |].
    - cbn [open_tar determine]. inversion F as [|ms' N A|]; subst ms'. change (0 <? -1 + 1) with false. cbv iota. destruct (each _ ms) as [|q l] eqn:El; [destruct ms; [congruence|discriminate El]|]. rewrite <- El. clear El q l.
      cbn [bind]. eexists. split; [reflexivity|]. cbn. f_equal. unfold each. rewrite map_map. apply map_ext_in. intros p I. cbn [fst snd]. f_equal. apply plain_last.
    - cbn [open_tar determine]. rewrite andb_false_r. change (0 <? 0 + 1) with true. destruct b as [|ms|name' b]; cbn; eexists; split; reflexivity.
  Qed.

  (** --recursive alone: all layers are opened; allowing more would not change anything. *)
  Theorem C117_recursive a fuel n : 0 < maxsize -> full a -> a <> Leaf -> (2 * layers a < fuel)%nat -> Z.of_nat (layers a) <= maxsize -> (layers a <= n)%nat ->
    exists l, mount maxsize fuel true None a = Ok l /\ Folder l = view n a.
  Proof.
    intros P F NL L B K. destruct (deep true maxsize a fuel P F NL L None eq_refl ltac:(now left)) as (l & E & V). exists l. split; [exact E|]. rewrite V. apply view_enough; lia.
  Qed.

  (** Neither of them: the outermost archive is opened, and for a compressed TAR archive also the TAR archive; nothing inside of it is. *)
  Theorem C117_default a fuel : full a -> a <> Leaf ->
    exists l, mount maxsize fuel false None a = Ok l /\ Folder l = view (match a with Comp _ (Tar _) => 2 | _ => 1 end) a.
  Proof.
    intros F NL. unfold mount. cbn [determine]. change (0 <? 0) with false. cbv iota. destruct a as [|ms|name b]; [congruence| |].
    - cbn [open_tar determine]. inversion F as [|ms' N A|]; subst ms'. change (0 <? -1 + 1) with false. cbv iota. destruct (each _ ms) as [|q l] eqn:El; [destruct ms; [congruence|discriminate El]|]. rewrite <- El. clear El q l.
      cbn [bind]. eexists. split; [reflexivity|]. cbn. f_equal. unfold each. rewrite map_map. apply map_ext_in. intros p I. cbn [fst snd]. f_equal. apply plain_last.
    - cbn [open_tar determine negb andb]. change (1 <? 0 + 1) with false. cbv iota. inversion F as [| |n' b' F']; subst n' b'. destruct b as [|ms|name' b]; [cbn; eexists; split; reflexivity| |cbn; eexists; split; reflexivity].
      inversion F' as [|ms' N A|]; subst ms'. destruct (each _ ms) as [|q l] eqn:El; [destruct ms; [congruence|discriminate El]|]. rewrite <- El. clear El q l.
      cbn [bind]. eexists. split; [reflexivity|]. cbn [view]. f_equal. unfold each. rewrite map_map. apply map_ext_in. intros p I. cbn [fst snd]. f_equal. apply (plain_last 1).
  Qed.

  (** Not so, documented in the help on --recursion-depth: a negative value represents infinite depth.  No TAR archive can be mounted with
      one, and of compressed files only the first layer is opened. *)
  Theorem C117_negative_refuted n fuel recursive : n < 0 ->
    (forall ms, mount maxsize fuel recursive (Some n) (Tar ms) = Err RatarmountError) /\
    (forall name b, mount maxsize fuel recursive (Some n) (Comp name b) = Ok [(name, File)]).
  Proof.
    intros N. split; intros.
    - unfold mount. cbn [open_tar determine]. destruct (Z.ltb_spec n (-1 + 1)); [reflexivity|lia].
    - unfold mount. cbn [open_tar determine]. rewrite andb_false_r. destruct (Z.ltb_spec n (0 + 1)); [|lia]. destruct (Z.ltb_spec 0 n); [lia|]. destruct b; reflexivity.
  Qed.

  (** Not so, documented there: 0 is the same as not specifying --recursive.  A compressed TAR archive is shown as one file then. *)
  Theorem C117_zero_refuted fuel name ms : full (Tar ms) ->
    mount maxsize fuel false (Some 0) (Comp name (Tar ms)) = Ok [(name, File)] /\
    mount maxsize fuel false None (Comp name (Tar ms)) = Ok (each (fun _ => File) ms).
  Proof.
    intros F. split; [reflexivity|]. destruct (C117_default (Comp name (Tar ms)) fuel ltac:(now constructor) ltac:(discriminate)) as (l & -> & V). f_equal. cbn in V. injection V as ->. reflexivity.
  Qed.

  (** Not so, documented there: with 1 all archives in the given archives are mounted.  In compressed TAR archives they are not. *)
  Theorem C117_one_refuted fuel name ms : full (Tar ms) -> (2 * layers (Comp name (Tar ms)) < fuel)%nat ->
    mount maxsize fuel false (Some 1) (Comp name (Tar ms)) = Ok (each (fun _ => File) ms).
  Proof.
    intros F L. destruct (C117_depth false 1 (Comp name (Tar ms)) fuel ltac:(lia) ltac:(now constructor) ltac:(discriminate) L) as (l & -> & V). f_equal. cbn in V. injection V as ->. reflexivity.
  Qed.

  (** Options for recursive mounting are said to have no effect exactly if they were given without --recursive. *)
  Theorem C117_warning_partial given recursive depth : 0 < maxsize -> says_no_effect maxsize given recursive depth = true <-> given = true /\ recursive = false.
  Proof.
    intros P. unfold says_no_effect, determine. rewrite andb_true_iff, Z.leb_le. destruct recursive; intuition (try discriminate; try lia).
  Qed.

  (** Not so, wanted: the warning appears exactly if nothing is mounted recursively.  It also appears with --recursion-depth 1 alone, which
      mounts archives in archives. *)
  Theorem C117_warning_refuted : 0 < maxsize -> says_no_effect maxsize true false (Some 1) = true /\
    mount maxsize 9 false (Some 1) (Tar [($"a.tar", Tar [($"f", Leaf)])]) = Ok [($"a.tar", Folder [($"f", File)])].
  Proof. intros P. split; [now apply C117_warning_partial|reflexivity]. Qed.
End Depth.

(** A compressed TAR archive with a file, a TAR archive and a compressed TAR archive in it. *)
Example C117_case :
  let a := Comp $"a.tar" (Tar [($"f", Leaf); ($"b.tar", Tar [($"c.gz", Comp $"c" Leaf)]); ($"d.tar.gz", Comp $"d.tar" (Tar [($"e", Leaf)]))]) in
  full a /\ layers a = 4%nat /\
  mount 100 20 false (Some 2) a = Ok [($"f", File); ($"b.tar", Folder [($"c.gz", File)]); ($"d.tar.gz", Folder [($"d.tar", File)])] /\
  mount 100 20 true None a = Ok [($"f", File); ($"b.tar", Folder [($"c.gz", Folder [($"c", File)])]); ($"d.tar.gz", Folder [($"e", File)])].
Proof.
  cbv zeta. split; [|split; [reflexivity|split; reflexivity]]. constructor. constructor; [discriminate|]. intros p [<- |[<- |[<- |[]]]]; cbn [snd]; [constructor| |].
  - constructor; [discriminate|]. intros p [<- |[]]. constructor. constructor.
  - constructor. constructor; [discriminate|]. intros p [<- |[]]. constructor.
Qed.

Print Assumptions C117_depth.
Print Assumptions C117_recursive.
Print Assumptions C117_default.
Print Assumptions C117_negative_refuted.
Print Assumptions C117_zero_refuted.
Print Assumptions C117_one_refuted.
Print Assumptions C117_warning_partial.
Print Assumptions C117_warning_refuted.
