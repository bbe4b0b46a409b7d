(** URLs of other machines. *)
From Coq Require Import Ascii String.
From Verif Require Import PyBase PyStr Git_Model Url_Model Url_Spec.
Local Open Scope Z_scope.

(** ** Helpers *)
Lemma char_eqb_In c l : existsb (char_eqb c) l = true <-> In c l.
Proof.
  rewrite existsb_exists. split; [intros (x & I & E); destruct (char_eqb_spec c x) as [-> |]; [exact I|discriminate]|intros I; exists c; split; [exact I|]].
  destruct (char_eqb_spec c c); congruence.
Qed.
Lemma span_not_app stop a b : lacks stop a -> (b = [] \/ exists c r, b = c :: r /\ In c stop) -> span_not stop (a ++ b) = (a, b).
Proof.
  intros L B. induction L as [|c a N L IH]; cbn [app].
  - destruct B as [-> |(c & r & -> & I)]; [reflexivity|]. cbn [span_not]. apply char_eqb_In in I. now rewrite I.
  - cbn [span_not]. destruct (existsb (char_eqb c) stop) eqn:E; [apply char_eqb_In in E; contradiction|]. now rewrite IH.
Qed.
Lemma span_not_parts stop s a b : span_not stop s = (a, b) -> s = a ++ b /\ lacks stop a /\ (b = [] \/ exists c r, b = c :: r /\ In c stop).
Proof.
  revert a b. induction s as [|c s IH]; cbn [span_not]; intros a b H; [injection H as <- <-; repeat split; [constructor|now left]|].
  destruct (existsb (char_eqb c) stop) eqn:E; [injection H as <- <-; repeat split; [constructor|right; exists c, s; split; [reflexivity|now apply char_eqb_In]]|].
  destruct (span_not stop s) as [x y]. injection H as <- <-. destruct (IH _ _ eq_refl) as (-> & L & B). repeat split; [|exact B]. constructor; [|exact L].
  intros I. apply char_eqb_In in I. congruence.
Qed.
Lemma lacks_weaken l m s : (forall c, In c l -> In c m) -> lacks m s -> lacks l s.
Proof. intros H. apply Forall_impl. intros c N I. now apply N, H. Qed.
Lemma split1_at_app sep a b : (forall x y, a = x ++ y -> y <> [] -> starts_with sep (y ++ sep ++ b) = false) -> split1_at sep (a ++ sep ++ b) = Some (a, b).
Proof.
  induction a as [|c a IH]; intros H.
  - cbn [app]. assert (skipn (length sep) (sep ++ b) = b) as E by (rewrite skipn_app, skipn_all, Nat.sub_diag; reflexivity). pose proof (starts_with_app sep b) as S. destruct (sep ++ b) eqn:D; cbn [split1_at]; rewrite S, E; reflexivity.
  - cbn [app split1_at]. assert (starts_with sep (c :: a ++ sep ++ b) = false) as -> by (apply (H [] (c :: a)); [reflexivity|discriminate]).
    rewrite IH; [reflexivity|]. intros x y -> N. apply (H (c :: x) y); [reflexivity|exact N].
Qed.
Lemma split_protocol a b : ~ In ":"%char a -> split1_at $"://" (a ++ $"://" ++ b) = Some (a, b).
Proof.
  intros N. apply split1_at_app. intros x [|c y] -> Ny; [contradiction|]. change ((c :: y) ++ $"://" ++ b) with (c :: y ++ $"://" ++ b). cbn [starts_with].
  change ($"://") with [":"; "/"; "/"]%char at 1. cbn [starts_with]. destruct (ascii_dec ":" c) as [<- |D]; [exfalso; apply N, in_or_app; right; now left|].
  destruct (char_eqb_spec ":" c) as [E|_]; [contradiction|reflexivity].
Qed.
Lemma split1_at_parts sep s a b : split1_at sep s = Some (a, b) -> s = a ++ sep ++ b.
Proof.
  revert a b. induction s as [|c s IH]; intros a b; cbn [split1_at].
  - destruct (starts_with sep []) eqn:E; [|discriminate]. intros [= <- <-]. apply starts_with_spec in E as (t & E). destruct sep; [now cbn|discriminate].
  - destruct (starts_with sep (c :: s)) eqn:E.
    + intros [= <- <-]. apply starts_with_spec in E as (t & ->). rewrite skipn_app, skipn_all, Nat.sub_diag. reflexivity.
    + destruct (split1_at sep s) as [[x y]|]; [|discriminate]. intros [= <- <-]. now rewrite (IH x y eq_refl).
Qed.

Lemma match_webdav_text cr host path : match cr with Some (u, p) => good_user u /\ good_password p | None => True end -> good_host cr host -> good_path path ->
  match_webdav (webdav_text cr host path) = (option_map fst cr, option_map snd cr, host, path).
Proof.
  intros C (H1 & H2) (P1 & P2).
  assert (forall r : option str * option str, (let '(host, rest) := span_not [slash] (host ++ path) in let '(path, _) := span_not [newline] rest in (fst r, snd r, host, path)) = (fst r, snd r, host, path)) as Tail.
  { intros r. rewrite span_not_app; [|exact H1|].
    - rewrite <- (app_nil_r path) at 1. rewrite span_not_app; [reflexivity|exact P2|now left].
    - destruct P1 as [-> |(r' & ->)]; [now left|right]. exists slash, r'. split; [reflexivity|now left]. }
  destruct cr as [[u p]|]; unfold match_webdav, webdav_text.
  - destruct C as (U & P). rewrite <- app_assoc. rewrite (span_not_app [":"%char; slash] u); [|exact U|right; eexists _, _; split; [reflexivity|now left]].
    change ((($":" ++ p ++ $"@") ++ host ++ path)) with (":"%char :: (p ++ $"@") ++ host ++ path). cbv iota. rewrite <- app_assoc.
    rewrite (span_not_app ["@"%char; slash] p); [|exact P|right; eexists _, _; split; [reflexivity|now left]].
    change ($"@" ++ host ++ path) with ("@"%char :: host ++ path). cbv iota beta zeta. exact (Tail (Some u, Some p)).
  - cbn [app]. specialize (H2 eq_refl). destruct (span_not [":"%char; slash] (host ++ path)) as [u rest] eqn:E. apply span_not_parts in E as (E & L & B).
    assert ((match rest with ":"%char :: rest => let '(password, rest) := span_not ["@"%char; slash] rest in match rest with "@"%char :: rest => Some (u, password, rest) | _ => None end | _ => None end) = None) as ->; [|exact (Tail (None, None))].
    destruct B as [-> |(c & r & -> & I)]; [reflexivity|]. destruct I as [<- |[<- |[]]]; [|reflexivity].
    destruct (span_not ["@"%char; slash] r) as [pw rest2] eqn:E2. apply span_not_parts in E2 as (-> & L2 & B2). destruct B2 as [-> |(c & r2 & -> & I)]; [reflexivity|]. destruct I as [<- |[<- |[]]]; [exfalso|reflexivity].
    (* host ++ path = u ++ ":" ++ pw ++ "@" ++ r2 *)
    assert (lacks [slash] (u ++ ":"%char :: pw)) as NoSlash.
    { apply Forall_app. split; [apply (lacks_weaken _ [":"%char; slash]); [|exact L]; intros c [<- |[]]; right; now left|].
      constructor; [intros [D|[]]; discriminate|]. apply (lacks_weaken _ ["@"%char; slash]); [|exact L2]. intros c [<- |[]]. right. now left. }
    change (host ++ path = u ++ ":"%char :: pw ++ "@"%char :: r2) in E. replace (u ++ ":"%char :: pw ++ "@"%char :: r2) with ((u ++ ":"%char :: pw) ++ "@"%char :: r2) in E by now rewrite <- app_assoc.
    revert E NoSlash H2. generalize (u ++ ":"%char :: pw). clear - P1. intros k. revert k. induction host as [|h host IH]; intros k E N H2.
    + cbn [app] in E. destruct P1 as [-> |(r' & ->)]; [now destruct k|]. destruct k as [|x k]; [discriminate|]. injection E as <- E. inversion N as [|? ? A]. apply A. now left.
    + inversion H2 as [|? ? A B]. subst. destruct k as [|x k]; cbn [app] in E.
      * injection E as -> E. apply A. now left.
      * injection E as -> E. inversion N. subst. now apply (IH k).
Qed.

(** ** C122 *)
Lemma remote_shown w s path t : honest (answers w s) t -> (forall u, s <> General true u) -> shown s path (t path) (open_remote w s path).
Proof.
  intros H N. unfold open_remote. destruct (H path) as (D & F & E & S). rewrite D, E, S.
  assert (forall x y : bool, (match s with General true _ => x | _ => y end) = y) as -> by (intros; destruct s as [| | |[|]]; try reflexivity; exfalso; now eapply N).
  destruct (t path) as [| |[|]]; cbn; eauto.
Qed.

Theorem C122_webdav :
  forall w credentials host path t,
    has_fsspec w = true -> has_webdav w = true ->
    match credentials with Some (u, p) => good_user u /\ good_password p | None => True end -> good_host credentials host -> good_path path ->
    let auth := match credentials with Some c => Some c | None => both (environ w $"WEBDAV_USER") (environ w $"WEBDAV_PASSWORD") end in
    let s := WebDav (if speaks_https w host then $"https" else $"http") host auth in
    honest (answers w s) t ->
    shown s path (t path) (try_open_url w ($"webdav://" ++ webdav_text credentials host path)).
Proof.
  intros w cr host path t F W C H P auth s A. unfold try_open_url.
  change ($"webdav://" ++ webdav_text cr host path) with ($"webdav" ++ $"://" ++ webdav_text cr host path).
  rewrite split_protocol by (intros I; cbn in I; intuition discriminate).
  change (has_ssh w && _) with (has_ssh w && false). rewrite andb_false_r, F, W. cbn [negb].
  change (str_eqb $"webdav" $"file") with false. change (str_eqb $"webdav" $"git") with false. change (str_eqb $"webdav" $"webdav") with true. cbv iota.
  change (match $"webdav" with [] => _ | _ => ?x end) with x. unfold webdav_server. rewrite match_webdav_text by assumption. destruct cr as [[u p]|]; cbn [option_map fst snd].
  - subst auth s. now apply remote_shown.
  - subst auth s. cbv zeta. now apply remote_shown.
Qed.
Print Assumptions C122_webdav.

(** User and password never come from two places: both are those of the URL, or both are those of the environment. *)
Lemma match_webdav_credentials s u p h q : match_webdav s = (u, p, h, q) ->
  (u = None /\ p = None) \/ exists u' p' x, u = Some u' /\ p = Some p' /\ s = u' ++ $":" ++ p' ++ $"@" ++ x.
Proof.
  unfold match_webdav. destruct (span_not [":"%char; slash] s) as [us rest] eqn:E. apply span_not_parts in E as (-> & _ & B).
  set (cr := match rest with ":"%char :: rest => _ | _ => None end).
  assert (cr = None \/ exists p' x, cr = Some (us, p', x) /\ rest = $":" ++ p' ++ $"@" ++ x) as [-> |(p' & x & -> & ->)].
  { subst cr. destruct B as [-> |(c & r & -> & I)]; [now left|]. destruct I as [<- |[<- |[]]]; [|now left]. destruct (span_not ["@"%char; slash] r) as [pw rest2] eqn:E2.
    apply span_not_parts in E2 as (-> & _ & B2). destruct B2 as [-> |(c & r2 & -> & I)]; [now left|]. destruct I as [<- |[<- |[]]]; [right|now left]. exists pw, r2. split; reflexivity. }
  - destruct (span_not [slash] _) as [? r1]. destruct (span_not [newline] r1). intros [= <- <- _ _]. now left.
  - destruct (span_not [slash] x) as [? r1]. destruct (span_not [newline] r1). intros [= <- <- _ _]. right. now exists us, p', x.
Qed.
Lemma open_remote_server w s path r : open_remote w s path = Ok r -> r = Folder s path \/ r = File s path 0.
Proof.
  unfold open_remote. match goal with |- context [if ?b then Ok (Folder _ _) else _] => destruct b end; [intros [= <-]; now left|].
  destruct (negb _); [discriminate|]. destruct (fs_seeks _ _); [|discriminate]. intros [= <-]. now right.
Qed.

Theorem C122_not_mixed :
  forall w url transport host u p path position,
    try_open_url w url = Ok (Folder (WebDav transport host (Some (u, p))) path) \/ try_open_url w url = Ok (File (WebDav transport host (Some (u, p))) path position) ->
    (exists x, url = $"webdav://" ++ u ++ $":" ++ p ++ $"@" ++ x) \/ (environ w $"WEBDAV_USER" = Some u /\ environ w $"WEBDAV_PASSWORD" = Some p).
Proof.
  intros w url tr host u p path pos H.
  assert (exists r, try_open_url w url = Ok r /\ (r = Folder (WebDav tr host (Some (u, p))) path \/ r = File (WebDav tr host (Some (u, p))) path pos)) as (r & E & R) by (destruct H; eauto).
  clear H. unfold try_open_url in E. destruct (split1_at $"://" url) as [[protocol rest]|] eqn:S; [|discriminate]. apply split1_at_parts in S. destruct protocol as [|c protocol]; [discriminate|]. set (pr := c :: protocol) in *.
  destruct (str_eqb pr $"file"); [injection E as <-; destruct R; discriminate|]. destruct (str_eqb pr $"git"); [injection E as <-; destruct R; discriminate|].
  destruct (has_ssh w && _).
  { unfold open_ssh in E. destruct (negb _); [discriminate|]. destruct (fs_isfile _ _) in E; injection E as <-; destruct R; discriminate. }
  destruct (negb (has_fsspec w)); [discriminate|]. destruct (str_eqb_spec pr $"webdav") as [Ep|_].
  - destruct (has_webdav w); [|discriminate]. unfold webdav_server in E. destruct (match_webdav rest) as [[[u0 p0] h0] q0] eqn:M. apply open_remote_server in E.
    assert ((match (match u0 with Some u => Some u | None => environ w $"WEBDAV_USER" end), (match p0 with Some p => Some p | None => environ w $"WEBDAV_PASSWORD" end) with Some u, Some p => Some (u, p) | _, _ => None end) = Some (u, p)) as A
      by (destruct R as [-> | ->], E as [E|E]; congruence).
    apply match_webdav_credentials in M as [(-> & ->)|(u' & p' & x & -> & -> & ->)].
    + right. destruct (environ w $"WEBDAV_USER"); [|discriminate]. destruct (environ w $"WEBDAV_PASSWORD"); [|discriminate]. injection A as -> ->. split; reflexivity.
    + left. injection A as -> ->. exists x. rewrite S, Ep. reflexivity.
  - destruct (str_eqb pr $"dropbox").
    + destruct (has_dropbox w); [|discriminate]. destruct (environ w $"DROPBOX_TOKEN") as [[|? ?]|]; try discriminate. apply open_remote_server in E. destruct R as [-> | ->], E; discriminate.
    + destruct (url_to_fs w url) as [http q]. apply open_remote_server in E. destruct R as [-> | ->], E; discriminate.
Qed.
Print Assumptions C122_not_mixed.

(** The folder in the Dropbox: the same names, with a slash before and none behind. *)
Lemma rstrip_parts c s : exists k, s = rstrip c s ++ repeat c k.
Proof.
  unfold rstrip. assert (forall l, exists k, l = repeat c k ++ lstrip c l) as H.
  { induction l as [|x l (k & IH)]; [now exists 0%nat|]. destruct (ascii_dec x c) as [-> |D]; [|exists 0%nat; now rewrite lstrip_id]. exists (S k). rewrite lstrip_sep. cbn [repeat app]. now f_equal. }
  destruct (H (rev s)) as (k & E). exists k. apply (f_equal (@rev ascii)) in E. rewrite rev_involutive, rev_app_distr in E. rewrite E at 1. f_equal.
  clear. induction k as [|k IH]; [reflexivity|]. cbn [repeat rev]. rewrite IH. symmetry. apply repeat_cons.
Qed.
Lemma names_app_slash a b : names (a ++ "/"%char :: b) = names a ++ names b.
Proof. unfold names. rewrite split_app_sep, filter_app. reflexivity. Qed.
Lemma names_slashes a k : names (a ++ repeat "/"%char k) = names a.
Proof.
  induction k as [|k IH]; [now rewrite app_nil_r|]. cbn [repeat]. rewrite names_app_slash. replace (names (repeat "/"%char k)) with (@nil str); [now rewrite app_nil_r|].
  clear. induction k as [|k IH]; [reflexivity|]. cbn [repeat]. change ("/"%char :: repeat "/"%char k) with ([] ++ "/"%char :: repeat "/"%char k). now rewrite names_app_slash, <- IH.
Qed.
Lemma dropbox_path_good rest : let p := dropbox_path rest in
  names p = names rest /\ (p = [] \/ ((exists x, p = "/"%char :: x) /\ ~ exists x, p = x ++ ["/"%char])).
Proof.
  cbv zeta. unfold dropbox_path. set (q := match rest with [] => [] | _ => _ end).
  assert (names q = names rest /\ (q = [] \/ exists x, q = "/"%char :: x)) as (N & Q).
  { subst q. destruct rest as [|c r]; [split; [reflexivity|now left]|]. destruct (char_eqb_spec c slash) as [-> |D]; [split; [reflexivity|right; now exists r]|].
    split; [exact (names_app_slash [] (c :: r))|right; now exists (c :: r)]. }
  destruct (rstrip_parts slash q) as (k & E). split.
  - rewrite <- N. rewrite E at 2. symmetry. apply (names_slashes (rstrip slash q) k).
  - destruct (rstrip slash q) as [|c p] eqn:R; [now left|right]. split.
    + destruct Q as [-> |(x & ->)]; [discriminate|]. injection E as <- _. now exists p.
    + intros (x & X). apply (f_equal (@rev ascii)) in R. unfold rstrip in R. rewrite rev_involutive, X, rev_app_distr in R. apply lstrip_head in R. now apply R.
Qed.

Theorem C122_dropbox :
  forall w rest token t,
    has_fsspec w = true -> has_dropbox w = true -> environ w $"DROPBOX_TOKEN" = Some token -> token <> [] -> honest (answers w (Dropbox token)) t ->
    exists p, names p = names rest /\ (p = [] \/ ((exists x, p = "/"%char :: x) /\ ~ exists x, p = x ++ ["/"%char])) /\
              shown (Dropbox token) p (t p) (try_open_url w ($"dropbox://" ++ rest)).
Proof.
  intros w rest token t F D E N A. exists (dropbox_path rest). destruct (dropbox_path_good rest) as (P & Q). split; [exact P|]. split; [exact Q|].
  unfold try_open_url. change ($"dropbox://" ++ rest) with ($"dropbox" ++ $"://" ++ rest). rewrite split_protocol by (intros I; cbn in I; intuition discriminate).
  change (has_ssh w && _) with (has_ssh w && false). rewrite andb_false_r, F, D, E. cbn [negb].
  change (str_eqb $"dropbox" $"file") with false. change (str_eqb $"dropbox" $"git") with false. change (str_eqb $"dropbox" $"webdav") with false. change (str_eqb $"dropbox" $"dropbox") with true. cbv iota.
  change (match $"dropbox" with [] => _ | _ => ?x end) with x. destruct token; [contradiction|]. now apply remote_shown.
Qed.
Print Assumptions C122_dropbox.

(** ssh: one slash behind the host begins a path relative to the home folder, two begin an absolute one.  Seeking is not tried. *)
Theorem C122_ssh :
  forall w protocol rest path t,
    has_ssh w = true -> In protocol [$"ssh"; $"sftp"; $"scp"] ->
    let url := protocol ++ $"://" ++ rest in
    honest (answers w (Ssh url)) t ->
    (ssh_path w url = $"/" ++ path \/ (path = [] /\ ssh_path w url = [])) ->
    let wanted := match path with [] => $"." | _ => path end in
    shown (Ssh url) wanted (match t wanted with AFile _ => AFile true | x => x end) (try_open_url w url).
Proof.
  intros w protocol rest path t S I url A P wanted.
  assert (try_open_url w url = open_ssh w url) as ->.
  { unfold try_open_url, url. destruct I as [<- |[<- |[<- |[]]]]; (rewrite split_protocol by (intros I; cbn in I; intuition discriminate)); rewrite S; reflexivity. }
  assert (open_ssh w url = if negb (fs_exists (answers w (Ssh url)) wanted) then Err RatarmountError else if fs_isfile (answers w (Ssh url)) wanted then Ok (File (Ssh url) wanted 0) else Ok (Folder (Ssh url) wanted)) as ->.
  { unfold open_ssh. destruct P as [-> |(-> & ->)]; reflexivity. }
  destruct (A wanted) as (_ & F & E & _). rewrite F, E. destruct (t wanted) as [| |b]; cbn; eauto.
Qed.
Print Assumptions C122_ssh.

(** All other protocols: over HTTP, only an HTML document is taken for a folder. *)
Theorem C122_general :
  forall w protocol rest http path t,
    has_fsspec w = true -> protocol <> [] -> ~ In ":"%char protocol ->
    ~ In protocol [$"file"; $"git"; $"webdav"; $"dropbox"] -> (has_ssh w = true -> ~ In protocol [$"ssh"; $"sftp"; $"scp"]) ->
    let url := protocol ++ $"://" ++ rest in
    url_to_fs w url = (http, path) -> honest (answers w (General http url)) t ->
    let t' := if http then match t path with AFolder => match fs_mime (answers w (General http url)) path with Some m => if str_eqb m $"text/html" then AFolder else AFile (fs_seeks (answers w (General http url)) path) | None => AFile (fs_seeks (answers w (General http url)) path) end | x => x end else t path in
    shown (General http url) path t' (try_open_url w url).
Proof.
  intros w protocol rest http path t F N C O S url U A t'.
  assert (try_open_url w url = open_remote w (General http url) path) as ->.
  { unfold try_open_url. unfold url at 1. rewrite split_protocol by exact C. destruct protocol as [|c pr]; [contradiction|]. set (p := c :: pr) in *.
    destruct (str_eqb_spec p $"file") as [E|_]; [exfalso; apply O; rewrite E; cbn; auto|]. destruct (str_eqb_spec p $"git") as [E|_]; [exfalso; apply O; rewrite E; cbn; auto|].
    assert (has_ssh w && existsb (str_eqb p) [$"sftp"; $"ssh"; $"scp"] = false) as ->.
    { destruct (has_ssh w); [|reflexivity]. specialize (S eq_refl). cbn [existsb andb]. destruct (str_eqb_spec p $"sftp") as [E|_]; [exfalso; apply S; rewrite E; cbn; auto|].
      destruct (str_eqb_spec p $"ssh") as [E|_]; [exfalso; apply S; rewrite E; cbn; auto|]. destruct (str_eqb_spec p $"scp") as [E|_]; [exfalso; apply S; rewrite E; cbn; auto|reflexivity]. }
    rewrite F. cbn [negb]. destruct (str_eqb_spec p $"webdav") as [E|_]; [exfalso; apply O; rewrite E; cbn; auto|]. destruct (str_eqb_spec p $"dropbox") as [E|_]; [exfalso; apply O; rewrite E; cbn; auto|].
    now rewrite U. }
  destruct http; [|subst t'; apply remote_shown; [exact A|discriminate]].
  unfold open_remote, t'. destruct (A path) as (D & _ & E & K). rewrite D, E. destruct (t path) as [| |b] eqn:T; rewrite ?andb_false_r, ?andb_true_r; cbn [negb].
  - cbn. eauto.
  - destruct (fs_mime _ path) as [m|]; [destruct (str_eqb m $"text/html")|]; [reflexivity|destruct (fs_seeks _ path); cbn; eauto..].
  - rewrite K. destruct b; cbn; eauto.
Qed.
Print Assumptions C122_general.

(** What is no URL, or needs a module or token that is not there, is an error. *)
Theorem C122_refused :
  forall w url,
    (~ (exists a b, url = a ++ $"://" ++ b) -> try_open_url w url = Err RatarmountError) /\
    (forall rest, url = $"://" ++ rest -> try_open_url w url = Err RatarmountError) /\
    (forall rest, has_fsspec w = false -> url = $"webdav://" ++ rest \/ url = $"dropbox://" ++ rest \/ url = $"https://" ++ rest -> try_open_url w url = Err RatarmountError) /\
    (forall rest, environ w $"DROPBOX_TOKEN" = None -> url = $"dropbox://" ++ rest -> try_open_url w url = Err RatarmountError) /\
    (forall rest, has_webdav w = false -> url = $"webdav://" ++ rest -> try_open_url w url = Err RatarmountError).
Proof.
  intros w url. split; [|split; [|split; [|split]]].
  - intros N. unfold try_open_url. destruct (split1_at $"://" url) as [[a b]|] eqn:S; [|reflexivity]. exfalso. apply N. exists a, b. now apply split1_at_parts.
  - intros rest ->. reflexivity.
  - intros rest F [-> |[-> | ->]]; unfold try_open_url; [change ($"webdav://" ++ rest) with ($"webdav" ++ $"://" ++ rest)|change ($"dropbox://" ++ rest) with ($"dropbox" ++ $"://" ++ rest)|change ($"https://" ++ rest) with ($"https" ++ $"://" ++ rest)];
      (rewrite split_protocol by (intros I; cbn in I; intuition discriminate)); rewrite F; now destruct (has_ssh w).
  - intros rest F ->. unfold try_open_url. change ($"dropbox://" ++ rest) with ($"dropbox" ++ $"://" ++ rest). rewrite split_protocol by (intros I; cbn in I; intuition discriminate). rewrite F. now destruct (has_ssh w), (has_fsspec w), (has_dropbox w).
  - intros rest F ->. unfold try_open_url. change ($"webdav://" ++ rest) with ($"webdav" ++ $"://" ++ rest). rewrite split_protocol by (intros I; cbn in I; intuition discriminate). rewrite F. now destruct (has_ssh w), (has_fsspec w).
Qed.
Print Assumptions C122_refused.

(** A world for the examples: two credentials in the environment, everything installed, one server on which one folder exists. *)
Definition ex_world (where_ : server) (folder : str) : world :=
  mkWorld true true true true (fun n => if str_eqb n $"WEBDAV_USER" then Some $"me" else if str_eqb n $"WEBDAV_PASSWORD" then Some $"secret" else if str_eqb n $"DROPBOX_TOKEN" then Some $"token" else None)
    (fun _ => true) (fun _ => $"//srv/data") (fun u => (true, u))
    (fun _ => mkRemote (str_eqb folder) (fun _ => false) (str_eqb folder) (fun _ => Some $"text/html") (fun _ => false)).

(** Wanted, but not so: a URL with a special character in its password is refused, or at least no other host is asked.  The part of the
    password before a slash is taken for the port, and sent to the name service with the user name. *)
Theorem C122_special_characters_refuted :
  ~ (forall w u p host path s q, lacks ["/"%char] host -> good_path path ->
       try_open_url w ($"webdav://" ++ webdav_text (Some (u, p)) host path) = Ok (Folder s q) -> exists t a, s = WebDav t host a).
Proof.
  intros H. specialize (H (ex_world (Dropbox []) $"/ss@example.org/dav") $"me" $"pa/ss" $"example.org" $"/dav").
  specialize (H (WebDav $"https" $"me:pa" (Some ($"me", $"secret"))) $"/ss@example.org/dav"). destruct H as (t & a & E).
  - repeat constructor; intros [D|[]]; discriminate.
  - split; [right; now eexists|repeat constructor; intros [D|[]]; discriminate].
  - reflexivity.
  - discriminate.
Qed.
Print Assumptions C122_special_characters_refuted.

Example C122_case :
  (let w := ex_world (Dropbox []) $"/dav" in
   try_open_url w $"webdav://you:pw@example.org:8080/dav" = Ok (Folder (WebDav $"https" $"example.org:8080" (Some ($"you", $"pw"))) $"/dav") /\
   try_open_url w $"webdav://example.org:8080/dav" = Ok (Folder (WebDav $"https" $"example.org:8080" (Some ($"me", $"secret"))) $"/dav") /\
   try_open_url w $"webdav://example.org:8080/other" = Err RatarmountError /\
   try_open_url w $"dropbox://dav/" = Ok (Folder (Dropbox $"token") $"/dav") /\
   good_user $"you" /\ good_password $"pw" /\ good_host (Some ($"you", $"pw")) $"example.org:8080" /\ good_path $"/dav" /\
   honest (answers w (Dropbox $"token")) (fun p => if str_eqb $"/dav" p then AFolder else Nothing)) /\
  try_open_url (ex_world (Dropbox []) $"/srv/data") $"ssh://example.org//srv/data" = Ok (Folder (Ssh $"ssh://example.org//srv/data") $"/srv/data") /\
  try_open_url (ex_world (Dropbox []) $"https://example.org/") $"https://example.org/" = Ok (Folder (General true $"https://example.org/") $"https://example.org/").
Proof.
  split; [cbv zeta|split; reflexivity]. repeat (split; [reflexivity|]).
  split; [repeat constructor; intros [D|[D|[]]]; discriminate|]. split; [repeat constructor; intros [D|[D|[]]]; discriminate|].
  split; [split; [repeat constructor; intros [D|[]]; discriminate|discriminate]|]. split; [split; [right; now eexists|repeat constructor; intros [D|[]]; discriminate]|].
  intros p. cbn [answers ex_world fs_isdir fs_isfile fs_exists fs_seeks]. destruct (str_eqb _ p); repeat split.
Qed.
