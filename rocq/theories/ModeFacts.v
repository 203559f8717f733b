(** ModeFacts.v -- the same project in another environment and in another mode (C86, C94). *)

From Coq Require Import String List NArith ZArith Bool Lia.
From Verif Require Import Text Utf8 Json Base Syntax Parse Tree Interp Build Disk Cli Load Dev New Report Main Server.
From Verif Require Import SpecScope SpecTree SpecDisk SpecProject SpecChars SpecDev SpecMain SpecServer SpecAlike SpecMode.
From Verif Require Import TextFacts ScopeFacts CliFacts AgainFacts MoveFacts MainFacts ServerFacts.
Import ListNotations.

(** ** Builds *)
Definition alike_but_input (st st' : stuart) : Prop :=
  st_output st' = st_output st /\ st_config st' = st_config st /\ st_plugins st' = st_plugins st.
Lemma merge_like n st st' : alike_but_input st st' -> snd (merge_output n st') = snd (merge_output n st) /\ alike_but_input (fst (merge_output n st)) (fst (merge_output n st')).
Proof.
  intros (O & C & P). unfold merge_output. rewrite O. destruct (st_output st) as [o|] eqn:Q; [|cbn [fst snd]; repeat split; congruence].
  destruct (merge o n) as [o' x]. cbn. repeat split; assumption.
Qed.
Lemma merge_dirs_like h dir names d : forall st st', alike_but_input st st' ->
  snd (merge_dirs h dir names d st') = snd (merge_dirs h dir names d st) /\ alike_but_input (fst (merge_dirs h dir names d st)) (fst (merge_dirs h dir names d st')).
Proof.
  induction names as [|n names IH]; intros st st' L; [now split|]. cbn [merge_dirs]. destruct (lookup _ d); [|now apply IH].
  destruct (node_new _ _ _ _ _ _) as [t| | |]; try now split. destruct (merge_like t st st' L) as [M1 M2].
  destruct (merge_output t st) as [s1 r], (merge_output t st') as [s1' r']. cbn [fst snd] in *. subst r'. destruct r; try now split. now apply IH.
Qed.
Lemma bam_like m m' c c' d : m_host m' = m_host m -> cx_dir c' = cx_dir c ->
  st_config (cx_stuart c') = st_config (cx_stuart c) -> st_plugins (cx_stuart c') = st_plugins (cx_stuart c) ->
  (forall content, lookup (cx_dir c ++ [lit "content"]) d = Some content ->
     steady eq (Some (mentioned (m_host m) (st_plugins (cx_stuart c)) content)) (st_plugins (cx_stuart c)) /\
     agree (Some (mentioned (m_host m) (st_plugins (cx_stuart c)) content)) (m_osenv m ++ [(lit "STUART_ENV", cx_mode c)]) (m_osenv m' ++ [(lit "STUART_ENV", cx_mode c')])) ->
  snd (build_and_merge m' c' d) = snd (build_and_merge m c d) /\
  (snd (build_and_merge m c d) = Ok tt -> alike_but_input (fst (build_and_merge m c d)) (fst (build_and_merge m' c' d))).
Proof.
  intros H D C P G. unfold build_and_merge. rewrite H, D.
  destruct (build_same (m_host m) (m_osenv m') (cx_mode c') (source_at (cx_dir c ++ [lit "content"]) d) (cx_stuart c) (cx_stuart c') C P) as [B1 B2].
  assert (X := env_build (m_host m) (m_osenv m) (m_osenv m') (cx_mode c) (cx_mode c') (source_at (cx_dir c ++ [lit "content"]) d) (cx_stuart c) G).
  pose proof (build_keeps (m_host m) (m_osenv m) (cx_mode c) (source_at (cx_dir c ++ [lit "content"]) d) (cx_stuart c)) as [K1 K2].
  pose proof (build_keeps (m_host m) (m_osenv m') (cx_mode c') (source_at (cx_dir c ++ [lit "content"]) d) (cx_stuart c)) as [K1' K2'].
  destruct (build (m_host m) (m_osenv m) _ _ (cx_stuart c)) as [b r], (build (m_host m) (m_osenv m') _ _ (cx_stuart c)) as [b' r'].
  destruct (build (m_host m) (m_osenv m') _ _ (cx_stuart c')) as [b2 r2]. cbn [fst snd] in *. destruct X as [-> X]. subst r2.
  destruct r as [[]| | |]; try (now split; [|discriminate]). rewrite (B2 eq_refl).
  destruct (merge_dirs_like (m_host m) (cx_dir c) [lit "static"; lit "temp"] d b b') as [M1 M2]; [split; [exact X|split; congruence]|].
  split; [exact M1|]. intros _. exact M2.
Qed.
Lemma run_scripts_like sc sc' l : (forall n x, sc' n x = sc n x) -> forall d, run_scripts sc' l d = run_scripts sc l d /\ scripts_say sc' l d = scripts_say sc l d.
Proof.
  intros E. induction l as [|n l IH]; intros d; [now split|]. cbn [run_scripts scripts_say]. rewrite E. destruct (sc n d) as [d' []]; try now split.
  destruct (IH d') as [A B]. now rewrite A, B.
Qed.
Lemma project_env m m' f c c' d : m_host m' = m_host m -> m_ser m' = m_ser m -> (forall n x, m_script m' n x = m_script m n x) ->
  cx_dir c' = cx_dir c -> cx_output c' = cx_output c -> cx_pre c' = cx_pre c -> cx_post c' = cx_post c ->
  st_config (cx_stuart c') = st_config (cx_stuart c) -> st_plugins (cx_stuart c') = st_plugins (cx_stuart c) ->
  (forall d1 content, ran (m_script m) (cx_pre c) d d1 -> lookup (cx_dir c ++ [lit "content"]) d1 = Some content ->
     steady eq (Some (mentioned (m_host m) (st_plugins (cx_stuart c)) content)) (st_plugins (cx_stuart c)) /\
     agree (Some (mentioned (m_host m) (st_plugins (cx_stuart c)) content)) (m_osenv m ++ [(lit "STUART_ENV", cx_mode c)]) (m_osenv m' ++ [(lit "STUART_ENV", cx_mode c')])) ->
  snd (fst (cli_build m' f c' d)) = snd (fst (cli_build m f c d)) /\ snd (cli_build m' f c' d) = snd (cli_build m f c d) /\
  build_says m' f c' d = build_says m f c d.
Proof.
  intros H SE SC D O PR PO C P G. unfold cli_build, build_says. rewrite D, O, PR, PO, SE.
  destruct (run_scripts_like (m_script m) (m_script m') (cx_pre c) SC d) as [R1 R2]. rewrite R1, R2. clear R1 R2.
  destruct (run_scripts (m_script m) (cx_pre c) d) as [d1 [e|]] eqn:R; [now repeat split|].
  destruct (bam_like m m' c c' d1 H D C P) as [B1 B2]; [intros content L; apply (G d1 content); [now apply run_scripts_ran|exact L]|].
  destruct (build_and_merge m c d1) as [st r], (build_and_merge m' c' d1) as [st' r']. cbn [fst snd] in *. subst r'.
  destruct r as [[]| | |]; try now repeat split. destruct (B2 eq_refl) as (E1 & E2 & E3). clear B2. unfold save, save_metadata, metadata_value. rewrite E1, E2.
  destruct (match st_output st with None => _ | Some _ => _ end) as [d3 [u| | |]]; try now repeat split.
  destruct (if cf_meta (st_config st) then _ else _) as [d4 [u'| | |]]; try now repeat split.
  destruct (run_scripts_like (m_script m) (m_script m') (cx_post c) SC d4) as [R1 R2]. rewrite R1, R2.
  destruct (run_scripts (m_script m) (cx_post c) d4) as [d5 [e|]]; now repeat split.
Qed.

(** ** Modes *)
Lemma unaware_agree h ps content (osenv : list (text * text)) (mode mode' : text) : unaware h ps content ->
  agree (Some (mentioned h ps content)) (osenv ++ [(lit "STUART_ENV", mode)]) (osenv ++ [(lit "STUART_ENV", mode')]).
Proof.
  intros [_ N] x M v. assert (X : x <> lit "STUART_ENV") by (intros ->; now apply N).
  rewrite <- !assoc_iff. assert (E : forall md : text, assoc x (osenv ++ [(lit "STUART_ENV", md)]) = assoc x osenv).
  { intros md. induction osenv as [|[k y] l IH]; cbn [app assoc fst snd]; [|now rewrite IH].
    destruct (text_eqb (lit "STUART_ENV") x) eqn:Q; [|reflexivity]. apply TextFacts.text_eqb_eq in Q. now symmetry in Q. }
  now rewrite !E.
Qed.
Lemma no_script_lists dir d : what (dir ++ [lit "scripts"]) d = KNone -> pre_scripts (lookup (dir ++ [lit "scripts"]) d) = [] /\ post_scripts (lookup (dir ++ [lit "scripts"]) d) = [].
Proof. unfold what. destruct (lookup _ d) as [[]|]; try discriminate. now split. Qed.
(** A build of the server and one by [stuart build] on the same disk. *)
Lemma modes w f r ps dir output manifest d : modeless w manifest output -> unaware_project w manifest dir output ps d ->
  let m := machine_of w manifest output (lit "development") in let m' := machine_of w manifest output (lit "production") in
  let c := init r ps dir output (lit "development") d in let c' := init r ps dir output (lit "production") d in
  snd (fst (cli_build m' f c' d)) = snd (fst (cli_build m f c d)) /\ snd (cli_build m' f c' d) = snd (cli_build m f c d) /\
  build_says m' f c' d = build_says m f c d.
Proof.
  intros N G. cbn zeta. apply project_env; try reflexivity; [exact N|].
  intros d1 content R L. specialize (G d1 content R L). cbn [m_osenv m_host machine_of cx_stuart st_plugins stuart_new cx_mode init]. split; [exact (proj1 G)|now apply unaware_agree].
Qed.

(** ** Commands *)
Definition exit_of (r : cli_result) : exit := match r with COk => Exit 0 | CErr _ => Exit 1 | CPanic _ => Exit 101 | CFuel => Runs end.
Lemma said_first w lv manifest output mode d dir name r deps d0 ps c said : meant (w_cwd w) manifest (dir ++ [name]) ->
  manifest_says w (dir ++ [name]) d r deps ->
  loads_all (lo_js (w_loader w)) (load_from_source (w_loader w) (w_load_faults w) dir) deps d d0 ps ->
  start w manifest output mode d = (d0, SOk c, said) -> deps = [] -> filter (let_through lv) said = [].
Proof.
  intros M S L E ->. inversion L; subst. destruct S as (b & t & W & U & T). apply join_meant in M. apply Utf8Facts.decoding in U. unfold start in E. cbn zeta in E. rewrite M, removelast_last in E.
  unfold what in W. destruct (lookup (dir ++ [name]) d0) as [[b'|l|]|]; try discriminate. injection W as ->. rewrite U, T in E. cbn [plugins_say load_plugins] in E. injection E as _ <-. reflexivity.
Qed.
Lemma main_news w lv manifest output d dir name r deps d0 ps : meant (w_cwd w) manifest (dir ++ [name]) ->
  manifest_says w (dir ++ [name]) d r deps ->
  loads_all (lo_js (w_loader w)) (load_from_source (w_loader w) (w_load_faults w) dir) deps d d0 ps ->
  modeless w (dir ++ [name]) output -> unaware_project w (dir ++ [name]) dir output ps d0 ->
  exists loading, (deps = [] -> loading = []) /\
    let m := machine_of w (dir ++ [name]) output (lit "development") in let c := init r ps dir output (lit "development") d0 in
    match cli_build m (w_build_faults w 0) c d0 with
    | (_, d', x) => main w lv (CmdBuild manifest output) d = (d', exit_of x, loading ++ news m lv (w_build_faults w 0) c d0 (loud lv))
    end.
Proof.
  intros M S L N G. destruct (start_ok w manifest output (lit "production") d dir name r deps d0 ps M S L) as [said E].
  exists (filter (let_through lv) said). split; [now apply (said_first w lv manifest output (lit "production") d dir name r deps d0 ps _ said M S L E)|].
  cbn zeta. unfold main, perform, build_command. rewrite E. apply join_meant in M. rewrite M.
  destruct (modes w (w_build_faults w 0) r ps dir output (dir ++ [name]) d0 N G) as (A & B & C). unfold news. rewrite <- C. clear C.
  assert (LG : build_says (machine_of w (dir ++ [name]) output (lit "production")) (w_build_faults w 0) (init r ps dir output (lit "production") d0) d0 <> [] /\
    forall i, In i (build_says (machine_of w (dir ++ [name]) output (lit "production")) (w_build_faults w 0) (init r ps dir output (lit "production") d0) d0) -> is_log i = true).
  { split; [|apply build_says_log]. unfold build_says. destruct (cx_pre (init r ps dir output (lit "production") d0)); [cbn [run_scripts scripts_say app]|cbn [scripts_say app]]; discriminate. }
  set (bs := build_says _ _ _ _) in *. clearbody bs. destruct LG as [NE LG].
  destruct (cli_build (machine_of w (dir ++ [name]) output (lit "development")) _ _ d0) as [[c1 d1] x], (cli_build (machine_of w (dir ++ [name]) output (lit "production")) _ _ d0) as [[c2 d2] x2].
  cbn [fst snd] in *. subst d2 x2. rewrite filter_app.
  destruct x as [|e|p|]; cbn [outcome_of exit_of]; try reflexivity.
  assert (X : existsb is_log (filter (let_through lv) said ++ filter (let_through lv) bs) = loud lv /\ loud lv || existsb is_log (filter (let_through lv) bs) = loud lv).
  { destruct bs as [|i bs]; [easy|]. pose proof (LG i (or_introl eq_refl)) as Li. destruct lv; cbn [loud orb].
    - rewrite existsb_app, !quiet_logs. now split.
    - split; [|reflexivity]. rewrite existsb_app, (loud_all Normal (i :: bs)) by reflexivity. cbn [existsb]. rewrite Li. apply orb_true_r.
    - split; [|reflexivity]. rewrite existsb_app, (loud_all _ (i :: bs)) by reflexivity. cbn [existsb]. rewrite Li. apply orb_true_r. }
  destruct X as [-> ->]. now rewrite <- !app_assoc.
Qed.
Lemma news_reported m lv f c d b : reported (news m lv f c d b) = match snd (cli_build m f c d) with CErr _ => true | _ => false end.
Proof.
  assert (NR : reported (filter (let_through lv) (build_says m f c d)) = false).
  { destruct (reported _) eqn:X; [|reflexivity]. apply existsb_exists in X. destruct X as (i & I & C). apply filter_In in I. destruct I as [I _]. apply build_says_log in I. now destruct i. }
  unfold news. destruct (snd _); try exact NR. unfold reported. rewrite !existsb_app. cbn [existsb]. now rewrite !orb_true_r.
Qed.
(** The first build of the server. *)
Lemma dev_as_build w lv manifest output d dir name r deps d0 ps : meant (w_cwd w) manifest (dir ++ [name]) ->
  manifest_says w (dir ++ [name]) d r deps ->
  loads_all (lo_js (w_loader w)) (load_from_source (w_loader w) (w_load_faults w) dir) deps d d0 ps ->
  modeless w (dir ++ [name]) output -> unaware_project w (dir ++ [name]) dir output ps d0 ->
  let x := dev_command w lv manifest output [] d in
  exists before loading l e, shown_of x = before ++ line lv (lit "Started") ++ l /\ main w lv (CmdBuild manifest output) d = (disk_of x, e, loading ++ l) /\
    (deps = [] -> before = [] /\ loading = []) /\ ended x = (if exits e then None else Some e) /\ (e = Exit 1 <-> reported l = true).
Proof.
  intros M S L N G. destruct (main_news w lv manifest output d dir name r deps d0 ps M S L N G) as (loading & LD & X).
  destruct (dev_started w lv manifest output d dir name r deps d0 ps M S L) as (said & SD & _ & D). cbn zeta in *. rewrite (D []), watch_stay. clear D.
  pose proof (dev_build_eq w lv (machine_of w (dir ++ [name]) output (lit "development")) false
    (Session (init r ps dir output (lit "development") d0) d0 0 (filter (let_through lv) (said ++ [Log (lit "Started")])) 0)) as E. cbn zeta in E. cbn [ss_context ss_disk ss_builds ss_shown ss_reloads] in E.
  assert (O := first_in_order (init r ps dir output (lit "development") d0) lv d0 said). destruct O as [_ O]. cbn [ss_shown] in O. rewrite O in E.
  pose proof (news_reported (machine_of w (dir ++ [name]) output (lit "development")) lv (w_build_faults w 0) (init r ps dir output (lit "development") d0) d0 (loud lv)) as R.
  set (n := news _ _ _ _ _ _) in *. clearbody n. destruct (cli_build _ _ _ _) as [[c1 d1] x]. cbn [snd] in R. rewrite E.
  exists (filter (let_through lv) said), loading, n, (exit_of x).
  assert (SH : filter (let_through lv) (said ++ [Log (lit "Started")]) ++ n = filter (let_through lv) said ++ line lv (lit "Started") ++ n).
  { rewrite filter_app, <- app_assoc. now destruct lv. }
  split; [destruct x; exact SH|]. split; [destruct x; exact X|]. split; [intros Z; rewrite (SD Z), (LD Z); now split|].
  split; [now destruct x|]. rewrite R. destruct x; cbn [exit_of]; split; congruence.
Qed.
(** Every later one. *)
Lemma preview w lv manifest output evs d s g p dir name r deps d0 ps : meant (w_cwd w) manifest (dir ++ [name]) ->
  manifest_says w (dir ++ [name]) d r deps ->
  loads_all (lo_js (w_loader w)) (load_from_source (w_loader w) (w_load_faults w) dir) deps d d0 ps ->
  modeless w (dir ++ [name]) output ->
  dev_command w lv manifest output evs d = Waiting s ->
  manifest_says w (dir ++ [name]) (g (ss_disk s)) r deps ->
  loads_all (lo_js (w_loader w)) (load_from_source (w_loader w) (w_load_faults w) dir) deps (g (ss_disk s)) (g (ss_disk s)) ps ->
  lookup (dir ++ [lit "scripts"]) (g (ss_disk s)) = lookup (dir ++ [lit "scripts"]) d0 -> ~ passed p ->
  unaware_project w (dir ++ [name]) dir output ps (g (ss_disk s)) ->
  let x := dev_command w lv manifest output (evs ++ [Event g (Some (dir ++ p))]) d in
  exists loading l e, shown_of x = ss_shown s ++ Blank :: line lv (lit "Detected") ++ l /\
    main (later (ss_builds s) w) lv (CmdBuild manifest output) (g (ss_disk s)) = (disk_of x, e, loading ++ l) /\
    (deps = [] -> loading = []) /\ ended x = (if exits e then None else Some e) /\ (e = Exit 1 <-> reported l = true) /\
    (ended x = None -> reloads_of x = (if reported l then 0 else 1) + ss_reloads s).
Proof.
  intros M S L N E S' L' N' P G. destruct (dev_started w lv manifest output d dir name r deps d0 ps M S L) as (said & _ & _ & D).
  destruct (main_news (later (ss_builds s) w) lv manifest output (g (ss_disk s)) dir name r deps (g (ss_disk s)) ps M S' L' N G) as (loading & LD & X). cbn zeta in *.
  set (m := machine_of w (dir ++ [name]) output (lit "development")) in *.
  change (machine_of (later (ss_builds s) w) (dir ++ [name]) output (lit "development")) with m in X.
  set (c0 := init r ps dir output (lit "development") d0) in *.
  assert (C0 : init r ps dir output (lit "development") (g (ss_disk s)) = c0).
  { unfold c0, init. now rewrite N'. }
  rewrite C0 in X. rewrite (D evs) in E. rewrite (D (evs ++ _)), watch_app, E, watch_one. clear D.
  assert (O : in_order c0 lv s).
  { refine (waiting_in_order _ _ _ _ _ _ _ _ E). intros s0 B. exact (build_in_order _ _ _ _ _ _ _ (first_in_order c0 lv d0 said) B). }
  pose proof O as [T LG]. assert (DIR : cx_dir (ss_context s) = dir) by now rewrite (twin_dir _ _ T). rewrite <- DIR.
  rewrite receive_kept by exact P.
  pose proof (dev_build_eq w lv m true (Session (ss_context s) (g (ss_disk s)) (ss_builds s) (detected lv (ss_shown s)) (ss_reloads s))) as Q. cbn zeta in Q. cbn [ss_context ss_disk ss_builds ss_shown ss_reloads] in Q.
  rewrite (detected_logs lv _ LG) in Q. rewrite (news_twin m lv _ c0 (ss_context s) _ _ T) in Q.
  assert (F : w_build_faults (later (ss_builds s) w) 0 = w_build_faults w (ss_builds s)) by (cbn [later w_build_faults]; f_equal; lia). rewrite F in X.
  pose proof (news_reported m lv (w_build_faults w (ss_builds s)) c0 (g (ss_disk s)) (loud lv)) as R.
  set (n := news _ _ _ _ _ _) in *. clearbody n.
  destruct (cli_build m (w_build_faults w (ss_builds s)) c0 (g (ss_disk s))) as [[c1 d1] x] eqn:B. cbn [snd] in R.
  destruct (cli_build_twin _ _ _ _ _ _ _ _ T B) as (c1' & B' & _ & _ & _). rewrite B' in Q. rewrite Q.
  exists loading, n, (exit_of x).
  assert (SH : detected lv (ss_shown s) ++ n = ss_shown s ++ Blank :: line lv (lit "Detected") ++ n) by (unfold detected; rewrite <- app_assoc; now destruct lv).
  split; [destruct x; exact SH|]. split; [destruct x; exact X|]. split; [exact LD|]. split; [now destruct x|]. rewrite R.
  split; [destruct x; cbn [exit_of]; split; congruence|]. destruct x; cbn [ended reloads_of ss_reloads]; intros Z; try discriminate; reflexivity.
Qed.
