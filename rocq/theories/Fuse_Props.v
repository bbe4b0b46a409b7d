(** C33: file handles. *)
From Coq Require Import Ascii String.
From Verif Require Import PyBase PyDict PyStr Path_Spec Overlay_Model Overlay_Spec Overlay_Proofs Overlay_Steps Overlay_Results
  Overlay_Props Fuse_Model Fuse_Spec Fuse_Proofs.

Section Claims.
  Context {A : Type} (zero : A).
  Variable lower : location -> option (@lnode A).
  Variable lower_names : location -> list str.
  Variable attributes : @ostate A -> location -> Z * Z * Z * Z.
  Variable has_overlay : bool.
  Hypothesis low : tree_like LDir lower lower_names.

  Notation serve := (serve zero lower lower_names attributes has_overlay).
  Notation serve_all := (serve_all zero lower lower_names attributes has_overlay).
  Notation after h := (snd (serve_all (@mounted A) h)).

  Lemma after_ok h : handles_ok (after h).
  Proof.
    destruct (serve_all mounted h) as [l st] eqn:E.
    now destruct (serve_all_handles zero lower lower_names attributes has_overlay low h mounted l st mounted_ok E).
  Qed.

  (** C33: all handles a mount ever gives out are different. *)
  Theorem C33_handles_differ h : NoDup (handles (fst (serve_all (@mounted A) h))).
  Proof.
    destruct (serve_all mounted h) as [l st] eqn:E.
    now destruct (serve_all_handles zero lower lower_names attributes has_overlay low h mounted l st mounted_ok E) as (_ & _ & N & _).
  Qed.

  (** C33: until a handle is released, reading through it reads the file it was opened for, whatever else happens and
      whatever path comes along: a member of an archive as it is, a file of the overlay folder as it is at the time, even if it has
      been renamed or removed meanwhile. *)
  Theorem C33_read h1 p w fh st1 h2 path size offset : serve (after h1) (FOpen p w) = (Ok (RHandle fh), st1) ->
    keeps fh h2 -> not_written fh h2 ->
    let st2 := snd (serve_all st1 h2) in
    exists x, place_of lower has_overlay (f_over (after h1)) p = Some x /\
      fst (serve st2 (FRead path size offset fh)) = Ok (RData (firstn size (skipn offset (content_at (f_over st2) x)))).
  Proof.
    intros O K N st2.
    pose proof (serve_handles zero lower lower_names attributes has_overlay low _ _ _ _ (after_ok h1) O) as (K1 & _).
    cbn [Fuse_Model.serve] in O. destruct (fopen lower has_overlay (after h1) p w) as [[n|e] s] eqn:E; [|discriminate].
    injection O as <- <-. apply fopen_facts in E. destruct E as (_ & E1 & E2 & f & F & _ & G).
    destruct (source_place lower has_overlay _ _ _ F) as (x & Px & ->). exists x. split; [exact Px|].
    assert (hget s n = Some (mkH w (file_of x) false)) as Gn by (now rewrite G, Nat.eqb_refl).
    destruct (serve_all_entry zero lower lower_names attributes has_overlay low n _ h2 s K1 Gn K N) as (_ & G2).
    cbn [Fuse_Model.serve fst]. unfold fread. fold st2 in G2. rewrite G2.
    cbn [h_closed h_file answered]. now rewrite file_of_content.
  Qed.

  (** What is opened is what the mount shows under the path. *)
  Theorem C33_open_opens_shown h p w fh st1 : serve (after h) (FOpen p w) = (Ok (RHandle fh), st1) ->
    exists x, place_of lower has_overlay (f_over (after h)) p = Some x /\
      shown lower has_overlay (after h) p = Some (EFile (content_at (f_over (after h)) x)).
  Proof.
    intros O. cbn [Fuse_Model.serve] in O. destruct (fopen lower has_overlay (after h) p w) as [[n|e] s] eqn:E; [|discriminate].
    injection O as <- <-. apply fopen_facts in E. destruct E as (_ & _ & _ & f & F & S & _).
    remember (after h) as st eqn:Est. clear Est. unfold source_open, shown, place_of in *. destruct has_overlay.
    - unfold visible in *. destruct (is_deleted (f_over st) p); [congruence|].
      unfold union_open, union_lookup in *. destruct p as [|a p]; [discriminate|].
      destruct (oget (o_fs (f_over st)) (a :: p)) as [[|i|t]|]; try discriminate F.
      + now exists (InFolder i).
      + destruct (lower (a :: p)) as [[|c|t]|]; try discriminate F. now exists (InArchive c).
    - destruct (lower p) as [[|c|t]|]; try discriminate F. now exists (InArchive c).
  Qed.

  (** C33: a handle from creating a file refers to that file until released: reads see it, writes through it change it and
      nothing else, whatever path comes along and whatever has happened to the path. *)
  Theorem C33_created h1 p m fh st1 h2 : serve (after h1) (FCreate p m) = (Ok (RHandle fh), st1) -> keeps fh h2 ->
    let st2 := snd (serve_all st1 h2) in
    exists i, oget (o_fs (f_over st1)) p = Some (OFile i) /\
      (forall path size offset, fst (serve st2 (FRead path size offset fh)) =
         Ok (RData (firstn size (skipn offset (content_of (f_over st2) i))))) /\
      (forall path data offset, let '(a, st3) := serve st2 (FWrite path data offset fh) in
         a = Ok RDone /\ o_fs (f_over st3) = o_fs (f_over st2) /\ o_rows (f_over st3) = o_rows (f_over st2) /\
         after_write zero (content_of (f_over st2) i) offset data (content_of (f_over st3) i) /\
         forall j, j <> i -> content_of (f_over st3) j = content_of (f_over st2) j).
  Proof.
    intros O K st2. pose proof (after_ok h1) as OK.
    pose proof (serve_handles zero lower lower_names attributes has_overlay low _ _ _ _ OK O) as (K1 & _).
    cbn [Fuse_Model.serve] in O. destruct (fcreate lower has_overlay (after h1) p m) as [[n|e] s] eqn:E; [|discriminate].
    injection O as <- <-. assert (has_overlay = true) as HO.
    { unfold fcreate in E. destruct has_overlay; [reflexivity|discriminate]. }
    apply (fcreate_facts zero lower lower_names attributes has_overlay low) in E. destruct E as (_ & E1 & E2 & i & C & G).
    assert (hget s n = Some (mkH false (HFd i) false)) as Gn by (now rewrite G, Nat.eqb_refl).
    destruct (serve_all_fd zero lower lower_names attributes has_overlay low n _ _ h2 s K1 Gn K) as (_ & G2).
    fold st2 in G2. exists i. split; [|split].
    - now destruct (create_shows lower lower_names attributes low _ _ _ _ _ (proj2 OK) C) as (_ & X).
    - intros path size offset. cbn [Fuse_Model.serve fst]. unfold fread. rewrite G2. reflexivity.
    - intros path data offset. cbn [Fuse_Model.serve]. unfold fwrite. rewrite G2, HO. cbn [negb h_file is_fd].
      unfold write_fd. rewrite G2. cbn [h_file h_closed]. unfold write. cbn [answered with_over f_over].
      split; [reflexivity|]. split; [reflexivity|]. split; [reflexivity|]. split.
      + rewrite content_set, Nat.eqb_refl. apply spliced_spec.
      + intros j Nj. rewrite content_set. destruct (Nat.eqb_spec i j); congruence.
  Qed.

  (** C33: the first write through a handle opened for writing, if the path that comes along still leads to the opened file:
      the file is changed by exactly that write, the path shows it, and reading through the handle as well. *)
  Theorem C33_first_write_partial h1 p fh st1 h2 path data offset st3 :
    serve (after h1) (FOpen p true) = (Ok (RHandle fh), st1) -> keeps fh h2 -> not_written fh h2 ->
    let st2 := snd (serve_all st1 h2) in
    place_of lower has_overlay (f_over st2) path = place_of lower has_overlay (f_over (after h1)) p ->
    shown lower has_overlay st2 path <> None ->
    serve st2 (FWrite path data offset fh) = (Ok RDone, st3) ->
    exists x c', place_of lower has_overlay (f_over (after h1)) p = Some x /\
      after_write zero (content_at (f_over st2) x) offset data c' /\
      shown lower has_overlay st3 path = Some (EFile c') /\
      forall any size off, fst (serve st3 (FRead any size off fh)) = Ok (RData (firstn size (skipn off c'))).
  Proof.
    intros O K N st2 Same Shown Wr.
    pose proof (serve_handles zero lower lower_names attributes has_overlay low _ _ _ _ (after_ok h1) O) as (K1 & _).
    cbn [Fuse_Model.serve] in O. destruct (fopen lower has_overlay (after h1) p true) as [[n|e] s] eqn:E; [|discriminate].
    injection O as <- <-. apply fopen_facts in E. destruct E as (_ & E1 & E2 & f & F & _ & G).
    destruct (source_place lower has_overlay _ _ _ F) as (x & Px & ->). exists x. clear F.
    assert (hget s n = Some (mkH true (file_of x) false)) as Gn by (now rewrite G, Nat.eqb_refl).
    destruct (serve_all_entry zero lower lower_names attributes has_overlay low n _ h2 s K1 Gn K N) as ((_ & W2) & G2).
    fold st2 in G2, W2. rewrite Px in Same.
    cbn [Fuse_Model.serve] in Wr. unfold fwrite in Wr. rewrite G2 in Wr.
    destruct has_overlay eqn:HO; cbn [negb] in Wr; [|discriminate].
    cbn [h_file h_write] in Wr. rewrite file_of_fd in Wr.
    destruct (open_overlay lower (f_over st2) path true) as [[i|e] o] eqn:OO; [|discriminate].
    unfold shown in Shown. assert (is_deleted (f_over st2) path = false) as D.
    { unfold visible in Shown. destruct (is_deleted (f_over st2) path); [congruence|reflexivity]. }
    destruct (open_write zero lower lower_names attributes low _ _ _ _ OO W2 D) as (V1 & Oi & Vc).
    assert (content_of o i = content_at (f_over st2) x) as Cf.
    { unfold visible in Vc. rewrite D in Vc. unfold place_of in Same. unfold union_lookup in *.
      destruct path as [|a path]; [discriminate|].
      destruct (oget (o_fs (f_over st2)) (a :: path)) as [[|j|t]|]; try discriminate Same.
      - injection Same as <-. cbn [content_at]. now injection Vc.
      - destruct (lower (a :: path)) as [[|c|t]|]; try discriminate Same. injection Same as <-. cbn [content_at].
        now injection Vc. }
    unfold write_fd in Wr.
    assert (hget (with_over (hset st2 n (mkH true (HFd i) false)) o) n = Some (mkH true (HFd i) false)) as G3.
    { change (hget (with_over ?x o) n) with (hget x n). rewrite hget_hset. now rewrite Nat.eqb_refl. }
    rewrite G3 in Wr. cbn [h_file h_closed with_over f_over] in Wr. unfold write in Wr. cbn [answered] in Wr. injection Wr as <-.
    exists (spliced zero (content_of o i) offset data). split; [exact Px|]. split; [rewrite Cf; apply spliced_spec|].
    assert (path <> []) as Np.
    { intros ->. unfold visible in Vc. destruct (is_deleted _ []); discriminate. }
    assert (is_deleted o path = false) as D1.
    { destruct (is_deleted o path) eqn:X; [|reflexivity]. rewrite <- V1 in Vc.
      unfold visible in Vc at 1. rewrite X in Vc. discriminate. }
    split.
    - unfold shown; cbn [with_over f_over].
      exact (proj2 (write_shows zero lower o i data offset _ path eq_refl Np Oi D1)).
    - intros any size off. cbn [Fuse_Model.serve fst]. unfold fread.
      match goal with |- context [hget ?s n] => change (hget s n) with (hget (with_over (hset st2 n (mkH true (HFd i) false)) o) n) end.
      rewrite G3. cbn [h_closed h_file file_content with_over f_over answered]. rewrite content_set, Nat.eqb_refl. reflexivity.
  Qed.

  (** C33: a handle opened for reading never changes anything. *)
  Theorem C33_read_only_handle h1 p fh st1 h2 path data offset :
    serve (after h1) (FOpen p false) = (Ok (RHandle fh), st1) -> keeps fh h2 -> not_written fh h2 ->
    serve (snd (serve_all st1 h2)) (FWrite path data offset fh) = (Err EROFS, snd (serve_all st1 h2)).
  Proof.
    intros O K N.
    pose proof (serve_handles zero lower lower_names attributes has_overlay low _ _ _ _ (after_ok h1) O) as (K1 & _).
    cbn [Fuse_Model.serve] in O. destruct (fopen lower has_overlay (after h1) p false) as [[n|e] s] eqn:E; [|discriminate].
    injection O as <- <-. apply fopen_facts in E. destruct E as (_ & E1 & E2 & f & F & _ & G).
    destruct (source_place lower has_overlay _ _ _ F) as (x & _ & ->). clear F.
    assert (hget s n = Some (mkH false (file_of x) false)) as Gn by (now rewrite G, Nat.eqb_refl).
    destruct (serve_all_entry zero lower lower_names attributes has_overlay low n _ h2 s K1 Gn K N) as (_ & G2).
    cbn [Fuse_Model.serve]. unfold fwrite. rewrite G2. destruct has_overlay; cbn [negb]; [|reflexivity].
    cbn [h_file h_write]. now rewrite file_of_fd.
  Qed.
  Lemma opened_shown st p : match shown lower has_overlay st p with
    | Some (EFile c) => exists f, source_open lower has_overlay st p = Some f /\ file_content st f = c
    | Some _ => source_open lower has_overlay st p = None
    | None => True
    end.
  Proof.
    unfold shown, source_open, visible, union_lookup, union_open. destruct has_overlay.
    - destruct (is_deleted (f_over st) p); [exact I|]. destruct p as [|a p]; [reflexivity|].
      destruct (oget (o_fs (f_over st)) (a :: p)) as [[|i|t]|]; [reflexivity|now exists (HReader i)|reflexivity|].
      destruct (lower (a :: p)) as [[|c|t]|]; [reflexivity|now exists (HMember c)|reflexivity|exact I].
    - destruct (lower p) as [[|c|t]|]; [reflexivity|now exists (HMember c)|reflexivity|exact I].
  Qed.

  (** C33: a file that is shown can always be opened; what is not shown is reported as missing, and what is no file is not opened.  Failing
      changes nothing. *)
  Theorem C33_open_exactly h p w :
    (forall c, shown lower has_overlay (after h) p = Some (EFile c) -> exists fh st1, serve (after h) (FOpen p w) = (Ok (RHandle fh), st1)) /\
    (shown lower has_overlay (after h) p = None -> serve (after h) (FOpen p w) = (Err ENOENT, after h)) /\
    (forall e, shown lower has_overlay (after h) p = Some e -> (forall c, e <> EFile c) -> serve (after h) (FOpen p w) = (Err EIO, after h)).
  Proof.
    pose proof (opened_shown (after h) p) as O. cbn [Fuse_Model.serve]. unfold fopen. split; [|split].
    - intros c E. rewrite E in O |- *. destruct O as (f & -> & _). cbn [add_new_handle answered]. eauto.
    - intros ->. reflexivity.
    - intros e E N. rewrite E in O |- *. destruct e as [|c|t]; [|now destruct (N c)|]; rewrite O; reflexivity.
  Qed.

  (** Handles in the table have been given out. *)
  Lemma known_given hist fh : forall st, hget (snd (serve_all st hist)) fh <> None -> hget st fh <> None \/ In fh (handles (fst (serve_all st hist))).
  Proof.
    induction hist as [|c r IH]; intros st H; [now left|]. cbn [Fuse_Model.serve_all] in *.
    destruct (serve st c) as [a s] eqn:E. specialize (IH s). destruct (serve_all s r) as [l s'] eqn:R. cbn [fst snd] in *.
    change (handles (a :: l)) with ((match a with Ok (RHandle n) => [n] | _ => [] end) ++ handles l). rewrite in_app_iff.
    destruct (IH H) as [G|G]; [|now right; right]. clear IH R H.
    destruct c as [p w|p m|p n o x|p d o x|x|o]; cbn [Fuse_Model.serve] in E.
    - destruct (fopen lower has_overlay st p w) as [q s2] eqn:F. injection E as <- <-. apply fopen_facts in F. destruct F as (_ & F).
      destruct q as [n|e]; [|subst s2; now left]. destruct F as (_ & _ & f & _ & _ & Q). rewrite Q in G. destruct (Nat.eqb_spec fh n) as [-> |N]; [right; left; now left|now left].
    - destruct (fcreate lower has_overlay st p m) as [q s2] eqn:F. injection E as <- <-. apply (fcreate_facts zero lower lower_names attributes has_overlay low) in F. destruct F as (_ & F).
      destruct q as [n|e]; [|destruct F as [_ F]; unfold hget in *; rewrite F in G; now left].
      destruct F as (_ & _ & i & _ & Q). rewrite Q in G. destruct (Nat.eqb_spec fh n) as [-> |N]; [right; left; now left|now left].
    - injection E as _ <-. now left.
    - destruct (fwrite zero lower has_overlay st p d o x) as [q s2] eqn:F. injection E as _ <-.
      apply (fwrite_facts zero lower lower_names attributes has_overlay low) in F. destruct F as (_ & _ & F & _). left. now apply F.
    - destruct (frelease st x) as [q s2] eqn:F. injection E as _ <-. apply frelease_facts in F. destruct F as (_ & _ & _ & F). left. now apply F.
    - destruct (fother zero lower lower_names attributes has_overlay st o) as [q s2] eqn:F. injection E as _ <-.
      apply (fother_facts zero lower lower_names attributes has_overlay low) in F. destruct F as (_ & F & _). unfold hget in *. rewrite F in G. now left.
  Qed.

  (** C33: with a handle the mount never gave out, a read goes by the path: it reads the file shown there, or fails as opening does; a write
      and a release fail and change nothing. *)
  Theorem C33_unknown_handle h fh path : ~ In fh (handles (fst (serve_all (@mounted A) h))) ->
    (forall c size offset, shown lower has_overlay (after h) path = Some (EFile c) -> fst (serve (after h) (FRead path size offset fh)) = Ok (RData (firstn size (skipn offset c)))) /\
    (forall size offset, shown lower has_overlay (after h) path = None -> fst (serve (after h) (FRead path size offset fh)) = Err ENOENT) /\
    (forall e size offset, shown lower has_overlay (after h) path = Some e -> (forall c, e <> EFile c) -> fst (serve (after h) (FRead path size offset fh)) = Err EIO) /\
    (forall data offset, serve (after h) (FWrite path data offset fh) = (Err KeyError, after h)) /\
    serve (after h) (FRelease fh) = (Err ESTALE, after h).
  Proof.
    intros N. assert (hget (after h) fh = None) as G.
    { destruct (hget (after h) fh) as [x|] eqn:G; [|reflexivity]. exfalso. destruct (known_given h fh mounted) as [K|K]; [rewrite G; discriminate|now apply K|exact (N K)]. }
    pose proof (opened_shown (after h) path) as O. cbn [Fuse_Model.serve fst]. unfold fread, fwrite, frelease. rewrite G.
    split; [|split; [|split; [|split]]]; try reflexivity.
    - intros c size offset E. rewrite E in O |- *. destruct O as (f & -> & <-). reflexivity.
    - intros size offset ->. reflexivity.
    - intros e size offset E M. rewrite E in O |- *. destruct e as [|c|t]; [|now destruct (M c)|]; rewrite O; reflexivity.
  Qed.
End Claims.

(** Without a write overlay, nothing any history does changes what is shown. *)
Theorem C33_no_overlay {A} (zero : A) lower lower_names attributes h :
  f_over (snd (serve_all zero lower lower_names attributes false (@mounted A) h)) = fresh_overlay.
Proof.
  assert (forall st, f_over (snd (serve_all zero lower lower_names attributes false st h)) = f_over st) as X; [|apply X].
  induction h as [|c h IH]; intros st; [reflexivity|]. cbn [serve_all].
  destruct (serve zero lower lower_names attributes false st c) as [a s] eqn:E.
  specialize (IH s). destruct (serve_all zero lower lower_names attributes false s h) as [l s']. cbn [snd] in *. rewrite IH.
  destruct c as [p w|p m|p n o x|p d o x|x|o]; cbn [serve] in E.
  - destruct (fopen lower false st p w) as [r s2] eqn:F. injection E as _ <-. now apply fopen_facts in F.
  - now injection E as _ <-.
  - now injection E as _ <-.
  - destruct (fwrite zero lower false st p d o x) as [r s2] eqn:F. injection E as _ <-. unfold fwrite in F.
    destruct (hget st x); now injection F as _ <-.
  - destruct (frelease st x) as [r s2] eqn:F. injection E as _ <-. now apply frelease_facts in F.
  - now injection E as _ <-.
Qed.

(** ** Examples: the hypotheses are met *)

Notation srv := (serve 0 (table_lower sample) (table_names sample) plain_attributes true).
Notation srv_all := (serve_all 0 (table_lower sample) (table_names sample) plain_attributes true).

(** Two handles on one file and one on a new file; the file is written through the second one, removed and read on. *)
Definition session : list (@call nat) :=
  [FOpen [$"a"] false; FOpen [$"a"] true; FCreate [$"n"] 33188; FWrite [$"n"] [5; 5] 1 3; FWrite [$"a"] [9] 0 2;
   FRelease 1; FOther (OpUnlink [$"n"]); FRead [$"n"] 10 0 3; FRead [$"a"] 10 0 2; FOpen [$"a"] false].

Example C33_session : fst (srv_all mounted session) =
  [Ok (RHandle 1); Ok (RHandle 2); Ok (RHandle 3); Ok RDone; Ok RDone; Ok RDone; Ok RDone;
   Ok (RData [0; 5; 5]); Ok (RData [9; 2; 3]); Ok (RHandle 4)].
Proof. vm_compute. reflexivity. Qed.

Example C33_first_write_example :
  let st1 := snd (srv mounted (FOpen [$"a"] true)) in
  let h2 := [FOther (OpRename [$"d"; $"x"] [$"z"])] in
  let st2 := snd (srv_all st1 h2) in
  fst (srv mounted (FOpen [$"a"] true)) = Ok (RHandle 1) /\ keeps 1 h2 /\ not_written 1 h2 /\
  place_of (table_lower sample) true (f_over st2) [$"a"] = place_of (table_lower sample) true fresh_overlay [$"a"] /\
  shown (table_lower sample) true st2 [$"a"] <> None /\ fst (srv st2 (FWrite [$"a"] [4] 1 1)) = Ok RDone.
Proof.
  vm_compute. repeat split; try discriminate; try (intros [X|[]]; discriminate). intros p d o [X|[]]; discriminate.
Qed.

(** After two opens, handle 7 is unknown. *)
Example C33_unknown_example : let h := [FOpen [$"a"] false; FOpen [$"d"; $"x"] true] in
  (~ In 7 (handles (fst (srv_all mounted h)))) /\ shown (table_lower sample) true (snd (srv_all mounted h)) [$"a"] = Some (EFile [1; 2; 3]) /\
  shown (table_lower sample) true (snd (srv_all mounted h)) [$"gone"] = None /\ shown (table_lower sample) true (snd (srv_all mounted h)) [$"d"] = Some EDir.
Proof. vm_compute. repeat split; auto. intros [X|[X|[]]]; discriminate. Qed.

(** ** Where the full statement fails *)

(** A handle opened for writing is reopened by path on the first write: if another file has been moved to that path
    meanwhile, that other file is written to. *)
Theorem C33_write_refuted :
  let h := [FOpen [$"a"] true; FOther (OpRename [$"d"; $"x"] [$"a"]); FWrite [$"a"] [9] 0 1; FOpen [$"a"] false; FRead [$"a"] 10 0 2] in
  fst (srv_all mounted h) = [Ok (RHandle 1); Ok RDone; Ok RDone; Ok (RHandle 2); Ok (RData [9; 8])] /\
  shown (table_lower sample) true mounted [$"a"] = Some (EFile [1; 2; 3]).
Proof. vm_compute. auto. Qed.

(** A file opened for reading before the first write to it by someone else keeps showing the old content, although both
    handles are for the same path and the path shows the new content. *)
Theorem C33_stale_reader_refuted :
  let h := [FOpen [$"a"] false; FOpen [$"a"] true; FWrite [$"a"] [9] 0 2; FRead [$"a"] 10 0 1; FRead [$"a"] 10 0 2] in
  fst (srv_all mounted h) = [Ok (RHandle 1); Ok (RHandle 2); Ok RDone; Ok (RData [1; 2; 3]); Ok (RData [9; 2; 3])].
Proof. vm_compute. reflexivity. Qed.

(** A failed first write leaves the handle closed: later reads through it fail although it has not been released. *)
Theorem C33_failed_write_refuted :
  let h := [FOpen [$"a"] true; FWrite [$"gone"] [9] 0 1; FRead [$"a"] 10 0 1] in
  fst (srv_all mounted h) = [Ok (RHandle 1); Err ENOENT; Err ValueError].
Proof. vm_compute. reflexivity. Qed.

Print Assumptions C33_handles_differ.
Print Assumptions C33_read.
Print Assumptions C33_open_opens_shown.
Print Assumptions C33_open_exactly.
Print Assumptions C33_unknown_handle.
Print Assumptions C33_created.
Print Assumptions C33_first_write_partial.
Print Assumptions C33_read_only_handle.
Print Assumptions C33_no_overlay.
Print Assumptions C33_write_refuted.
Print Assumptions C33_stale_reader_refuted.
Print Assumptions C33_failed_write_refuted.
