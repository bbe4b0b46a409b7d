(** Lemmas about indexes whose rows are made from a list of members in one go, with any header offsets. *)
From Coq Require Import Ascii String Permutation Sorting.Sorted.
From Verif Require Import PyBase PyDict PyStr Path_Model Path_Spec Path_Proofs FileInfo Index_Model Index_Spec Index_Proofs Build_Proofs SeqIndex_Proofs.
Local Open Scope Z_scope.

Section Members.
  Context {E : Type}.
  Variable row_of : E -> row.
  Variable loc_of : E -> location.
  Hypothesis H_path : forall e, full_path (row_of e) = written (loc_of e).
  Hypothesis H_name : forall e, ~ In slash (r_name (row_of e)).
  Hypothesis H_proper : forall e, Forall proper_name (loc_of e).

  Lemma member_backend e : backend_row (row_of e).
  Proof.
    split; [apply H_name|]. pose proof (H_path e) as F. pose proof (H_proper e) as P.
    destruct (loc_of e) as [|x l _] eqn:Q using rev_ind.
    - left. unfold full_path in F. destruct (r_path (row_of e)) as [|c p] eqn:Ep; cbn in F; [split; [exact Ep|unfold written in F; cbn in F; congruence]|].
      exfalso. injection F as _ F. destruct p; discriminate.
    - right. exists l, x. apply Forall_app in P as [P1 P2]. inversion P2; subst. split; [exact P1|]. split; assumption.
  Qed.

  Variables now uid gid : Z.
  Variable sh : list row -> list row.
  Hypothesis H_order : any_order sh.

  Lemma member_lookup before e after loc :
    loc_of e = loc -> loc <> [] ->
    (forall e', In e' before -> loc_of e' = loc -> r_offsetheader (row_of e') <= r_offsetheader (row_of e)) ->
    (forall e', In e' after -> loc_of e' = loc -> r_offsetheader (row_of e') < r_offsetheader (row_of e)) ->
    (is_dir_mode (r_mode (row_of e)) = true \/ forall e' rest, In e' (before ++ e :: after) -> rest <> [] -> loc_of e' <> loc ++ rest) ->
    lookup now uid gid sh (build [Batch (map row_of (before ++ e :: after))]) (written loc) 0 = Some (row_to_file_info (row_of e)).
  Proof.
    intros L N Hb Ha Hh. set (is := [Batch (map row_of (before ++ e :: after))]).
    assert (R : inserted_rows is = map row_of (before ++ e :: after)) by (unfold is; cbn; apply app_nil_r).
    assert (B : forall r, In r (inserted_rows is) -> backend_row r).
    { intros r I. rewrite R in I. apply in_map_iff in I as (x & <- & _). apply member_backend. }
    pose proof (H_proper e) as P. rewrite L in P. pose proof (denotes_written loc P) as D.
    destruct (built_rows is B) as (B1 & B2 & B3 & B4).
    assert (LI : last_inserted (row_of e) (inserted_rows is)).
    { rewrite R, map_app. cbn [map]. exists (map row_of before), (map row_of after). split; [reflexivity|]. intros r' I (S1 & S2).
      apply in_map_iff in I as (x & <- & I). rewrite !H_path in S1. apply written_inj in S1; [|apply H_proper..]. specialize (Ha x I). rewrite S1 in Ha. specialize (Ha L). lia. }
    apply lookup_greatest; auto.
    - rewrite D. exact N.
    - now rewrite D, H_path, L.
    - intros r' I F. destruct (B2 r' I) as [(a & b & Q & _)|(below & pre & n & Ib & G & Dd)].
      + assert (I' : In r' (inserted_rows is)) by (rewrite Q; apply in_or_app; right; now left). rewrite R in I'. apply in_map_iff in I' as (x & <- & I').
        rewrite !H_path in F. apply written_inj in F; [|apply H_proper..]. rewrite L in F.
        apply in_app_or in I' as [I'|[<-|I']]; [now apply Hb|lia|]. specialize (Ha x I' F). lia.
      + exfalso. destruct Hh as [Hd|Hh].
        * rewrite (Dd _ LI (eq_sym F)) in Hd. discriminate.
        * destruct G as (G1 & _ & _ & _ & _ & _ & _ & _ & _ & _ & _ & rest & name & (M1 & M2 & M3)).
          rewrite R in Ib. apply in_map_iff in Ib as (x & <- & Ib). rewrite H_path in M3.
          apply Forall_app in M1 as [M0 M1]. pose proof (Forall_inv M1) as Pn. pose proof (Forall_inv_tail M1) as Pr.
          assert (Pp : Forall proper_name (pre ++ [n])) by (apply Forall_app; split; [assumption|constructor; [assumption|constructor]]).
          assert (Q : loc = pre ++ [n]) by (apply written_inj; [exact P|exact Pp|]; rewrite <- G1, F, H_path, L; reflexivity).
          apply (Hh x (rest ++ [name])); [exact Ib|destruct rest; discriminate|]. apply written_inj in M3; [|apply H_proper|].
          -- rewrite M3, Q. now rewrite <- !app_assoc.
          -- apply Forall_app. split; [|constructor; [assumption|constructor]]. apply Forall_app. split; [exact M0|now constructor].
  Qed.

  (** Nothing is found where there is no member and no folder of a member. *)
  Lemma member_lookup_none es loc : Forall proper_name loc -> loc <> [] ->
    (forall e rest, In e es -> loc_of e <> loc ++ rest) -> lookup now uid gid sh (build [Batch (map row_of es)]) (written loc) 0 = None.
  Proof.
    intros P N H. set (is := [Batch (map row_of es)]). pose proof (denotes_written loc P) as D.
    assert (R : inserted_rows is = map row_of es) by (unfold is; cbn; apply app_nil_r).
    assert (B : forall r, In r (inserted_rows is) -> backend_row r).
    { intros r I. rewrite R in I. apply in_map_iff in I as (x & <- & _). apply member_backend. }
    destruct (built_rows is B) as (B1 & B2 & B3 & B4).
    assert (A0 : forall r, In r (build is) -> full_path r <> written loc).
    { intros r I F. destruct (B2 r I) as [(a & b & Q & _)|(below & pre & n & Ib & G & Dd)].
      - assert (I' : In r (inserted_rows is)) by (rewrite Q; apply in_or_app; right; now left). rewrite R in I'. apply in_map_iff in I' as (x & <- & I').
        rewrite !H_path in F. apply written_inj in F; [|apply H_proper|exact P]. apply (H x [] I'). now rewrite app_nil_r.
      - destruct G as (G1 & _ & _ & _ & _ & _ & _ & _ & _ & _ & _ & rest & name & (M1 & M2 & M3)).
        rewrite R in Ib. apply in_map_iff in Ib as (x & <- & Ib). rewrite H_path in M3.
        apply Forall_app in M1 as [M0 M1]. pose proof (Forall_inv M1) as Pn. pose proof (Forall_inv_tail M1) as Pr.
        assert (Pp : Forall proper_name (pre ++ [n])) by (apply Forall_app; split; [assumption|constructor; [assumption|constructor]]).
        assert (Q : loc = pre ++ [n]) by (apply written_inj; [exact P|exact Pp|]; rewrite <- G1, F; reflexivity).
        apply (H x (rest ++ [name]) Ib). apply written_inj in M3; [|apply H_proper|].
        + rewrite M3, Q. now rewrite <- !app_assoc.
        + apply Forall_app. split; [|constructor; [assumption|constructor]]. apply Forall_app. split; [exact M0|now constructor]. }
    assert (Hp : starts_with $"../" (written loc) = false) by reflexivity.
    rewrite (lookup_spec now uid gid sh H_order (build is) (written loc) B3 Hp ltac:(now rewrite D) _ (occurrences_exist _ _ B4)).
    assert (E0 : filter (at_path (written loc)) (build is) = []).
    { clear - A0 D. induction (build is) as [|r l IH]; [reflexivity|]. cbn [filter]. destruct (at_path (written loc) r) eqn:Q.
      - exfalso. unfold at_path in Q. apply str_eqb_eq in Q. rewrite D in Q. now apply (A0 r); [left|].
      - apply IH. intros r' I. apply A0. now right. }
    rewrite E0. reflexivity.
  Qed.

  (** What is listed in a folder is what is found below its path. *)
  Lemma member_list es sh1 loc n : any_order sh1 -> Forall proper_name loc -> proper_name n ->
    match index_list sh1 (build [Batch (map row_of es)]) (written loc) with Some d => dget str_eqb d n | None => None end =
    lookup now uid gid sh (build [Batch (map row_of es)]) (written (loc ++ [n])) 0.
  Proof.
    intros O1 P Pn. set (is := [Batch (map row_of es)]).
    assert (R : inserted_rows is = map row_of es) by (unfold is; cbn; apply app_nil_r).
    assert (B : forall r, In r (inserted_rows is) -> backend_row r).
    { intros r I. rewrite R in I. apply in_map_iff in I as (x & <- & _). apply member_backend. }
    destruct (built_rows is B) as (_ & _ & B3 & B4).
    assert (L : forall n, proper_name n -> lookup now uid gid sh (build is) (written loc ++ slash :: n) 0 = match index_list sh1 (build is) (written loc) with Some d => dget str_eqb d n | None => None end).
    { eapply (list_agrees now uid gid sh1 sh sh1); auto. }
    rewrite <- (L n Pn). unfold lookup. rewrite !query_written by reflexivity.
    assert (E0 : denotes (written loc ++ slash :: n) = denotes (written (loc ++ [n]))); [|now rewrite E0].
    rewrite denotes_written by (apply Forall_app; split; [exact P|now constructor]). unfold written.
    destruct loc as [|a l] eqn:Q.
    - cbn [join app]. change (denotes (slash :: slash :: n)) with (denotes n). exact (denotes_written [n] ltac:(now constructor)).
    - change ((slash :: join $"/" (a :: l)) ++ slash :: n) with (slash :: (join $"/" (a :: l) ++ $"/" ++ n)). change (join $"/" (a :: l) ++ $"/" ++ n) with (join $"/" (a :: l) ++ $"/" ++ join $"/" [n]). rewrite <- join_app by discriminate.
      exact (denotes_written ((a :: l) ++ [n]) ltac:(apply Forall_app; split; [exact P|now constructor])).
  Qed.
End Members.
