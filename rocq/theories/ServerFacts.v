(** ServerFacts.v -- runs of [stuart dev] (C92). *)

From Coq Require Import String List NArith ZArith Bool Lia.
From Verif Require Import Text Utf8 Json Base Syntax Parse Tree Interp Build Disk Cli Load Dev New Report Main Server.
From Verif Require Import SpecScope SpecTree SpecDisk SpecProject SpecChars SpecDev SpecMain SpecServer.
From Verif Require Import TextFacts SiteDisk NewFacts Utf8Facts TreeFacts CliFacts AgainFacts ReportFacts DevFacts MainFacts.
Import ListNotations.

(** ** Contexts of one project *)
Definition twin (c c' : context) : Prop :=
  same_project c c' /\ cx_pre c' = cx_pre c /\ cx_post c' = cx_post c /\ cx_output c' = cx_output c.
Lemma twin_refl c : twin c c.
Proof. repeat split. Qed.
Lemma twin_trans a b c : twin a b -> twin b c -> twin a c.
Proof. intros ((A1 & A2 & A3 & A4) & A5 & A6 & A7) ((B1 & B2 & B3 & B4) & B5 & B6 & B7). repeat split; congruence. Qed.
Lemma build_keeps h osenv mode sd st : st_config (fst (build h osenv mode sd st)) = st_config st /\ st_plugins (fst (build h osenv mode sd st)) = st_plugins st.
Proof.
  unfold build. destruct (node_new _ _ _ _ _ _); try now split. destruct (preprocess _ _); try now split. destruct (build_tree _ _ _ _) as [[i o]| | |]; now split.
Qed.
Lemma merge_keeps n st : st_config (fst (merge_output n st)) = st_config st /\ st_plugins (fst (merge_output n st)) = st_plugins st.
Proof. unfold merge_output. destruct (st_output st); [|now split]. destruct (merge _ _); now split. Qed.
Lemma merge_dirs_keeps h dir names d : forall st, st_config (fst (merge_dirs h dir names d st)) = st_config st /\ st_plugins (fst (merge_dirs h dir names d st)) = st_plugins st.
Proof.
  induction names as [|n names IH]; intros st; [now split|]. cbn [merge_dirs]. destruct (lookup _ d); [|apply IH].
  destruct (node_new _ _ _ _ _ _) as [t| | |]; try now split. pose proof (merge_keeps t st) as M. destruct (merge_output t st) as [st1 [u| | |]]; try exact M.
  cbn [fst] in M. destruct (IH st1) as [A B]. destruct M. split; congruence.
Qed.
Lemma bam_keeps m c d : st_config (fst (build_and_merge m c d)) = st_config (cx_stuart c) /\ st_plugins (fst (build_and_merge m c d)) = st_plugins (cx_stuart c).
Proof.
  unfold build_and_merge. pose proof (build_keeps (m_host m) (m_osenv m) (cx_mode c) (source_at (cx_dir c ++ [lit "content"]) d) (cx_stuart c)) as B.
  destruct (build _ _ _ _ _) as [st1 [u| | |]]; try exact B. cbn [fst] in B. destruct (merge_dirs_keeps (m_host m) (cx_dir c) [lit "static"; lit "temp"] d st1). destruct B. split; congruence.
Qed.
Lemma twin_set c st : st_config st = st_config (cx_stuart c) -> st_plugins st = st_plugins (cx_stuart c) -> twin c (set_stuart st c).
Proof. intros A B. repeat split; assumption. Qed.
(** A build depends on the context only through what twins share, and leaves a twin. *)
Lemma cli_build_twin m f c c' d c1 d1 r : twin c c' -> cli_build m f c d = (c1, d1, r) ->
  exists c1', cli_build m f c' d = (c1', d1, r) /\ twin c c1 /\ twin c' c1' /\ build_says m f c' d = build_says m f c d.
Proof.
  intros (SP & E1 & E2 & E3) B. pose proof SP as (S1 & S2 & S3 & S4). unfold cli_build, build_says in *. rewrite E1, E2, E3, S4.
  destruct (run_scripts (m_script m) (cx_pre c) d) as [e [er|]].
  { injection B as <- <- <-. exists c'. split; [reflexivity|]. split; [apply twin_refl|]. split; [apply twin_refl|reflexivity]. }
  destruct (bam_same m c c' e e SP (fun n _ => eq_refl)) as [B1 B2].
  pose proof (bam_keeps m c e) as K. pose proof (bam_keeps m c' e) as K'.
  destruct (build_and_merge m c e) as [st rs]. destruct (build_and_merge m c' e) as [st' rs']. cbn [fst snd] in *. subst rs'.
  destruct K as [K1 K2], K' as [K1' K2']. pose proof (twin_set c st K1 K2) as T. pose proof (twin_set c' st' K1' K2') as T'.
  destruct rs as [u|x|x|]; try (injection B as <- <- <-; eexists; split; [reflexivity|]; split; [exact T|split; [exact T'|reflexivity]]).
  destruct u. rewrite (B2 eq_refl) in *. clear B2.
  destruct (save _ _ _ _) as [d3 [u|x|x|]]; try (injection B as <- <- <-; eexists; split; [reflexivity|]; split; [exact T|split; [exact T'|reflexivity]]).
  destruct (if cf_meta (st_config st) then _ else _) as [d4 [v|x|x|]]; try (injection B as <- <- <-; eexists; split; [reflexivity|]; split; [exact T|split; [exact T'|reflexivity]]).
  destruct (run_scripts (m_script m) (cx_post c) d4) as [d5 [er|]]; injection B as <- <- <-; (eexists; split; [reflexivity|]; split; [exact T|split; [exact T'|reflexivity]]).
Qed.

(** ** Builds of the server *)
Definition news (m : machine) (lv : level) (f : faults) (c : context) (d : ent) (logged : bool) : list note :=
  let said := filter (let_through lv) (build_says m f c d) in
  match snd (cli_build m f c d) with
  | CErr e => said ++ (if logged || existsb is_log said then [Blank] else []) ++ [Report (main_error_of e)]
  | _ => said
  end.
Lemma news_twin m lv f c c' d b : twin c c' -> news m lv f c' d b = news m lv f c d b.
Proof.
  intros T. unfold news. destruct (cli_build m f c d) as [[c1 d1] r] eqn:B. destruct (cli_build_twin _ _ _ _ _ _ _ _ T B) as (c1' & -> & _ & _ & ->). reflexivity.
Qed.
Lemma said_nr m f c d lv : no_report (filter (let_through lv) (build_says m f c d)).
Proof. apply nr_filter, logs_nr. apply build_says_log. Qed.
Lemma dev_build_eq w lv m tell s : let f := w_build_faults w (ss_builds s) in let c := ss_context s in let d := ss_disk s in
  match cli_build m f c d with
  | (c', d', r) =>
    let shown := ss_shown s ++ news m lv f c d (existsb is_log (ss_shown s)) in
    dev_build w lv m tell s =
    match r with
    | COk => Waiting (Session c' d' (S (ss_builds s)) shown (if tell then S (ss_reloads s) else ss_reloads s))
    | CErr e => Waiting (Session c' d' (S (ss_builds s)) shown (ss_reloads s))
    | CPanic _ => Over d' (Exit 101) shown
    | CFuel => Over d' Runs shown
    end
  end.
Proof.
  cbn zeta. unfold dev_build, news, dev_report. destruct (cli_build _ _ _ _) as [[c' d'] r]. cbn [snd]. destruct r; try reflexivity.
  rewrite existsb_app. now rewrite <- app_assoc.
Qed.

(** ** Sessions *)
Definition loud (lv : level) : bool := match lv with Quiet => false | _ => true end.
Definition in_order (c0 : context) (lv : level) (s : session) : Prop :=
  twin c0 (ss_context s) /\ existsb is_log (ss_shown s) = loud lv.
Lemma quiet_logs l : existsb is_log (filter (let_through Quiet) l) = false.
Proof. induction l as [|i l IH]; [reflexivity|]. cbn [filter]. destruct i; cbn [let_through]; cbn [existsb is_log]; exact IH. Qed.
Lemma loud_all lv l : loud lv = true -> filter (let_through lv) l = l.
Proof. intros L. apply all_through. now destruct lv. Qed.
Lemma news_logs m lv f c d : existsb is_log (news m lv f c d (loud lv)) = existsb is_log (filter (let_through lv) (build_says m f c d)).
Proof.
  unfold news. destruct (snd _); try reflexivity. rewrite !existsb_app. destruct (loud lv || _); cbn [existsb is_log orb]; now rewrite ?orb_false_r.
Qed.
Lemma build_in_order w lv m tell c0 s s' : in_order c0 lv s -> dev_build w lv m tell s = Waiting s' -> in_order c0 lv s'.
Proof.
  intros [T L] E. pose proof (dev_build_eq w lv m tell s) as D. cbn zeta in D. destruct (cli_build _ _ _ _) as [[c' d'] r] eqn:B. rewrite D in E. clear D.
  destruct (cli_build_twin _ _ _ _ _ _ _ _ (twin_refl _) B) as (_ & _ & T1 & _ & _).
  assert (TT : twin c0 c') by (eapply twin_trans; eassumption).
  assert (LL : existsb is_log (ss_shown s ++ news m lv (w_build_faults w (ss_builds s)) (ss_context s) (ss_disk s) (existsb is_log (ss_shown s))) = loud lv).
  { rewrite existsb_app, L, news_logs. destruct lv; cbn [loud]; [|reflexivity|reflexivity]. apply quiet_logs. }
  destruct r; try discriminate; injection E as <-; now split.
Qed.
Lemma detected_logs lv l : existsb is_log l = loud lv -> existsb is_log (detected lv l) = loud lv.
Proof. intros E. unfold detected. rewrite existsb_app, E. now destruct lv. Qed.
Lemma receive_in_order w lv m c0 ev s s' : in_order c0 lv s -> receive w lv m ev s = Waiting s' -> in_order c0 lv s'.
Proof.
  intros O E. pose proof O as [T L]. unfold receive in E. cbn zeta in E. destruct (match ev_path ev with Some p => _ | None => _ end) as [p|]; [|discriminate].
  destruct (ignored_event p); [injection E as <-; now split|].
  assert (O' : in_order c0 lv (Session (ss_context s) (ev_edit ev (ss_disk s)) (ss_builds s) (detected lv (ss_shown s)) (ss_reloads s))) by (split; [exact T|now apply detected_logs]).
  destruct (last_is _ p); [injection E as <-; exact O'|]. now apply (build_in_order _ _ _ _ _ _ _ O' E).
Qed.
Lemma watch_over w lv m evs d e l : watch w lv m evs (Over d e l) = Over d e l.
Proof. now destruct evs. Qed.
Lemma watch_in_order w lv m c0 evs : forall s s', in_order c0 lv s -> watch w lv m evs (Waiting s) = Waiting s' -> in_order c0 lv s'.
Proof.
  induction evs as [|ev evs IH]; intros s s' O E; [injection E as <-; exact O|]. cbn [watch] in E. destruct (receive w lv m ev s) as [s1|d1 e1 l1] eqn:R; [|rewrite watch_over in E; discriminate].
  apply (IH s1 s'); [now apply (receive_in_order _ _ _ _ _ _ _ O R)|exact E].
Qed.
Lemma watch_app w lv m a b : forall x, watch w lv m (a ++ b) x = watch w lv m b (watch w lv m a x).
Proof. induction a as [|e a IH]; intros x; [destruct x; reflexivity|]. destruct x as [s|]; cbn [watch app]; [apply IH|]. now rewrite watch_over. Qed.
Lemma watch_stay w lv m x : watch w lv m [] x = x.
Proof. now destruct x. Qed.
Lemma watch_one w lv m ev s : watch w lv m [ev] (Waiting s) = receive w lv m ev s.
Proof. exact (watch_stay w lv m _). Qed.
Lemma waiting_in_order w lv m c0 evs x s : (forall s0, x = Waiting s0 -> in_order c0 lv s0) -> watch w lv m evs x = Waiting s -> in_order c0 lv s.
Proof. intros O E. destruct x as [s0|]; [|rewrite watch_over in E; discriminate]. now apply (watch_in_order w lv m c0 evs s0 s); [apply O|]. Qed.

(** Two builds by twins. *)
Lemma builds_alike w w' lv m tell tell' c0 s s' : in_order c0 lv s -> in_order c0 lv s' -> ss_disk s' = ss_disk s ->
  w_build_faults w' (ss_builds s') = w_build_faults w (ss_builds s) ->
  exists l, disk_of (dev_build w lv m tell s) = disk_of (dev_build w' lv m tell' s') /\ ended (dev_build w lv m tell s) = ended (dev_build w' lv m tell' s') /\
    shown_of (dev_build w lv m tell s) = ss_shown s ++ l /\ shown_of (dev_build w' lv m tell' s') = ss_shown s' ++ l /\
    (ended (dev_build w lv m tell s) = None -> reloads_of (dev_build w lv m tell s) = (if tell then if reported l then 0 else 1 else 0) + ss_reloads s).
Proof.
  intros [T L] [T' L'] D F. assert (TT : twin (ss_context s) (ss_context s')).
  { destruct T as ((A1 & A2 & A3 & A4) & A5 & A6 & A7), T' as ((B1 & B2 & B3 & B4) & B5 & B6 & B7). repeat split; congruence. }
  pose proof (dev_build_eq w lv m tell s) as E. pose proof (dev_build_eq w' lv m tell' s') as E'. cbn zeta in E, E'. rewrite D, F, L' in E'. rewrite L in E.
  rewrite (news_twin m lv _ (ss_context s) (ss_context s') _ _ TT) in E'.
  destruct (cli_build m (w_build_faults w (ss_builds s)) (ss_context s) (ss_disk s)) as [[c1 d1] r] eqn:B.
  destruct (cli_build_twin _ _ _ _ _ _ _ _ TT B) as (c1' & B' & _ & _ & _). rewrite B' in E'. rewrite E, E'.
  exists (news m lv (w_build_faults w (ss_builds s)) (ss_context s) (ss_disk s) (loud lv)).
  assert (NR : reported (filter (let_through lv) (build_says m (w_build_faults w (ss_builds s)) (ss_context s) (ss_disk s))) = false).
  { destruct (reported _) eqn:X; [|reflexivity]. apply existsb_exists in X. destruct X as (i & I & C). apply filter_In in I. destruct I as [I _]. apply build_says_log in I. now destruct i. }
  destruct r; (split; [reflexivity|]; split; [reflexivity|]; split; [reflexivity|]; split; [reflexivity|]); cbn [ended reloads_of]; intros G; try discriminate;
    unfold news; rewrite B; cbn [snd]; [rewrite NR; now destruct tell|].
  unfold reported. rewrite !existsb_app. cbn [existsb]. rewrite !orb_true_r. now destruct tell.
Qed.

(** ** Against a new process *)
Lemma dev_started w lv manifest output d dir name r deps d0 ps : meant (w_cwd w) manifest (dir ++ [name]) ->
  manifest_says w (dir ++ [name]) d r deps ->
  loads_all (lo_js (w_loader w)) (load_from_source (w_loader w) (w_load_faults w) dir) deps d d0 ps ->
  exists said, (deps = [] -> said = []) /\ no_report said /\ forall evs, dev_command w lv manifest output evs d =
    let m := machine_of w (dir ++ [name]) output (lit "development") in
    watch w lv m evs (dev_build w lv m false (Session (init r ps dir output (lit "development") d0) d0 0 (filter (let_through lv) (said ++ [Log (lit "Started")])) 0)).
Proof.
  intros M S L. destruct (start_ok w manifest output (lit "development") d dir name r deps d0 ps M S L) as [said E]. exists said. split; [|split].
  - intros ->. inversion L; subst. destruct S as (b & t & W & U & T). apply join_meant in M. apply decoding in U. unfold start in E. cbn zeta in E. rewrite M, removelast_last in E.
    unfold what in W. destruct (lookup (dir ++ [name]) d0) as [[b'|l|]|]; try discriminate. injection W as ->. rewrite U, T in E. cbn [plugins_say load_plugins] in E. injection E as <-. reflexivity.
  - pose proof (start_nr w manifest output (lit "development") d) as N. now rewrite E in N.
  - intros evs. unfold dev_command. cbn zeta. rewrite E. apply join_meant in M. now rewrite M.
Qed.
Lemma first_in_order c0 lv d0 l : in_order c0 lv (Session c0 d0 0 (filter (let_through lv) (l ++ [Log (lit "Started")])) 0).
Proof.
  split; [apply twin_refl|]. cbn [ss_shown]. destruct lv; [apply quiet_logs| |]; rewrite loud_all by reflexivity; rewrite existsb_app; cbn; apply orb_true_r.
Qed.
Lemma receive_passed w lv m g p s : passed p -> exists l, receive w lv m (Event g (Some (cx_dir (ss_context s) ++ p))) s =
    Waiting (Session (ss_context s) (g (ss_disk s)) (ss_builds s) (ss_shown s ++ l) (ss_reloads s)).
Proof.
  intros P. apply rebuilds_passed in P. unfold receive. cbn [ev_edit ev_path]. rewrite (proj2 (strip_app _ _ p) eq_refl). unfold rebuilds in P.
  destruct (ignored_event p); [exists []; now rewrite app_nil_r|]. cbn [negb andb] in P. destruct (last_is _ p); [|discriminate]. eexists. reflexivity.
Qed.
Lemma receive_kept w lv m g p s : ~ passed p -> receive w lv m (Event g (Some (cx_dir (ss_context s) ++ p))) s =
    dev_build w lv m true (Session (ss_context s) (g (ss_disk s)) (ss_builds s) (detected lv (ss_shown s)) (ss_reloads s)).
Proof.
  intros P. apply rebuilds_kept in P. unfold receive. cbn [ev_edit ev_path]. rewrite (proj2 (strip_app _ _ p) eq_refl). unfold rebuilds in P.
  apply andb_true_iff in P. destruct P as [P Q]. apply negb_true_iff in P, Q. now rewrite P, Q.
Qed.
Lemma twin_dir c0 c : twin c0 c -> cx_dir c = cx_dir c0.
Proof. now intros ((_ & _ & _ & D) & _). Qed.
Lemma as_restarted w lv manifest output evs d s g p dir name r deps d0 ps : meant (w_cwd w) manifest (dir ++ [name]) ->
  manifest_says w (dir ++ [name]) d r deps ->
  loads_all (lo_js (w_loader w)) (load_from_source (w_loader w) (w_load_faults w) dir) deps d d0 ps ->
  dev_command w lv manifest output evs d = Waiting s ->
  manifest_says w (dir ++ [name]) (g (ss_disk s)) r deps ->
  loads_all (lo_js (w_loader w)) (load_from_source (w_loader w) (w_load_faults w) dir) deps (g (ss_disk s)) (g (ss_disk s)) ps ->
  lookup (dir ++ [lit "scripts"]) (g (ss_disk s)) = lookup (dir ++ [lit "scripts"]) d0 -> ~ passed p ->
  let x := dev_command w lv manifest output (evs ++ [Event g (Some (dir ++ p))]) d in
  let y := dev_command (later (ss_builds s) w) lv manifest output [] (g (ss_disk s)) in
  disk_of x = disk_of y /\ ended x = ended y /\
  exists loading l, (deps = [] -> loading = []) /\ shown_of y = loading ++ line lv (lit "Started") ++ l /\
    shown_of x = ss_shown s ++ Blank :: line lv (lit "Detected") ++ l /\
    (ended x = None -> reloads_of x = (if reported l then 0 else 1) + ss_reloads s).
Proof.
  intros M S L E S' L' SC P. destruct (dev_started w lv manifest output d dir name r deps d0 ps M S L) as (said & _ & _ & D).
  assert (M2 : meant (w_cwd (later (ss_builds s) w)) manifest (dir ++ [name])) by exact M.
  assert (S2 : manifest_says (later (ss_builds s) w) (dir ++ [name]) (g (ss_disk s)) r deps) by exact S'.
  destruct (dev_started (later (ss_builds s) w) lv manifest output (g (ss_disk s)) dir name r deps (g (ss_disk s)) ps M2 S2 L') as (said2 & SD & _ & D2).
  cbn zeta in D, D2. set (m := machine_of w (dir ++ [name]) output (lit "development")) in *.
  change (machine_of (later (ss_builds s) w) (dir ++ [name]) output (lit "development")) with m in D2.
  set (c0 := init r ps dir output (lit "development") d0) in *.
  assert (C0 : init r ps dir output (lit "development") (g (ss_disk s)) = c0) by (unfold c0, init; now rewrite SC). rewrite C0 in D2.
  rewrite (D evs) in E. cbn zeta. rewrite (D (evs ++ _)), (D2 []), watch_app, E, watch_one, watch_stay. clear D D2.
  assert (O : in_order c0 lv s).
  { refine (waiting_in_order _ _ _ _ _ _ _ _ E). intros s0 B. exact (build_in_order _ _ _ _ _ _ _ (first_in_order c0 lv d0 said) B). }
  pose proof O as [T LG]. assert (DIR : cx_dir (ss_context s) = dir) by now rewrite (twin_dir _ _ T). rewrite <- DIR.
  rewrite receive_kept by exact P.
  destruct (builds_alike w (later (ss_builds s) w) lv m true false c0
    (Session (ss_context s) (g (ss_disk s)) (ss_builds s) (detected lv (ss_shown s)) (ss_reloads s))
    (Session c0 (g (ss_disk s)) 0 (filter (let_through lv) (said2 ++ [Log (lit "Started")])) 0)) as (l & A1 & A2 & A3 & A4 & A5).
  - split; [exact T|now apply detected_logs].
  - apply first_in_order.
  - reflexivity.
  - cbn [ss_builds later w_build_faults]. f_equal. lia.
  - split; [exact A1|]. split; [exact A2|]. exists (filter (let_through lv) said2), l. split; [intros X; now rewrite (SD X)|].
    split; [rewrite A4; cbn [ss_shown]; rewrite filter_app, <- app_assoc; now destruct lv|]. split; [|exact A5].
    rewrite A3. cbn [ss_shown]. unfold detected. rewrite <- app_assoc. now destruct lv.
Qed.

(** Events that are passed over. *)
Lemma as_before w lv manifest output evs d s g p dir name r deps d0 ps : meant (w_cwd w) manifest (dir ++ [name]) ->
  manifest_says w (dir ++ [name]) d r deps ->
  loads_all (lo_js (w_loader w)) (load_from_source (w_loader w) (w_load_faults w) dir) deps d d0 ps ->
  dev_command w lv manifest output evs d = Waiting s -> passed p ->
  exists s', dev_command w lv manifest output (evs ++ [Event g (Some (dir ++ p))]) d = Waiting s' /\
    ss_disk s' = g (ss_disk s) /\ ss_builds s' = ss_builds s /\ ss_reloads s' = ss_reloads s.
Proof.
  intros M S L E P. destruct (dev_started w lv manifest output d dir name r deps d0 ps M S L) as (said & _ & _ & D). cbn zeta in D.
  rewrite (D evs) in E. rewrite (D (evs ++ _)), watch_app, E, watch_one. clear D.
  assert (O : in_order (init r ps dir output (lit "development") d0) lv s).
  { refine (waiting_in_order _ _ _ _ _ _ _ _ E). intros s0 B. exact (build_in_order _ _ _ _ _ _ _ (first_in_order _ lv d0 said) B). }
  destruct O as [T _]. assert (DIR : cx_dir (ss_context s) = dir) by now rewrite (twin_dir _ _ T).
  destruct (receive_passed w lv (machine_of w (dir ++ [name]) output (lit "development")) g p s P) as [l R].
  rewrite DIR in R. rewrite R. eexists. split; [reflexivity|]. now repeat split.
Qed.
(** How it ends. *)
Lemma dev_build_over w lv m tell s d e l : dev_build w lv m tell s = Over d e l -> e = Exit 101 \/ e = Runs.
Proof. unfold dev_build. destruct (cli_build _ _ _ _) as [[c' d'] []]; intros X; try discriminate; injection X as _ <- _; auto. Qed.
Lemma watch_over_why w lv m evs : forall s d e l, watch w lv m evs (Waiting s) = Over d e l -> e = Exit 101 \/ e = Runs.
Proof.
  induction evs as [|ev evs IH]; intros s d e l E; [discriminate|]. cbn [watch] in E. destruct (receive w lv m ev s) as [s1|d1 e1 l1] eqn:R; [now apply (IH s1 d e l)|].
  rewrite watch_over in E. injection E as <- <- <-. unfold receive in R. cbn zeta in R. destruct (match ev_path ev with Some p => _ | None => _ end); [|injection R as _ <- _; now left].
  destruct (ignored_event _); [discriminate|]. destruct (last_is _ _); [discriminate|]. now apply dev_build_over in R.
Qed.
Lemma dev_ends w lv manifest output evs d d' e l : dev_command w lv manifest output evs d = Over d' e l ->
  (e = Exit 1 /\ forall evs', dev_command w lv manifest output evs' d = Over d' e l) \/ e = Exit 101 \/ e = Runs.
Proof.
  unfold dev_command. cbn zeta. destruct (start _ _ _ _ _) as [[d1 [c|er|pn]] said]; intros E.
  - right. destruct (dev_build _ _ _ _ _) as [s0|d2 e2 l2] eqn:B; [now apply watch_over_why in E|]. rewrite watch_over in E. injection E as <- <- <-. now apply dev_build_over in B.
  - left. injection E as <- <- <-. now split.
  - right. left. now injection E as _ <- _.
Qed.

(** ** Sites in order *)
Lemma dev_first w lv manifest output d dir name r deps d0 ps content statics out : untroubled w -> meant (w_cwd w) manifest (dir ++ [name]) ->
  manifest_says w (dir ++ [name]) d r deps ->
  loads_all (lo_js (w_loader w)) (load_from_source (w_loader w) (w_load_faults w) dir) deps d d0 ps ->
  meant dir output out -> ready w dir r ps out content statics d0 ->
  exists s, dev_command w lv manifest output [] d = Waiting s /\ published w r ps out content statics (ss_disk s) /\
    forall e, ~ In (Report e) (ss_shown s).
Proof.
  intros U M MS L MO (SC & CM & NP & LC & LS & LT & D & NI & NS & NE & PD & WO & Or & SO & NC & NO). apply join_meant in MO.
  destruct (dev_started w lv manifest output d dir name r deps d0 ps M MS L) as (said & _ & NR & DS).
  cbn zeta in DS. rewrite (DS []), watch_stay.
  set (m := machine_of w (dir ++ [name]) output (lit "development")) in *. set (c := init r ps dir output (lit "development") d0) in *.
  assert (OD : output_dir c = out) by exact MO.
  apply what_none in SC. apply what_none in LT.
  destruct (project_built m c d0 content statics) as (c' & d' & B & F); try assumption.
  - unfold c, init. cbn [cx_pre]. now rewrite SC.
  - unfold c, init. cbn [cx_post]. now rewrite SC.
  - split; [exact NI|]. split; [exact NS|]. split; [|exact NP]. intros e E. change (cx_dir c) with dir in E. rewrite LT in E. discriminate.
  - rewrite OD. exact NE.
  - rewrite OD. exact PD.
  - rewrite OD. exact WO.
  - rewrite <- (proj1 U 0) in B. pose proof (dev_build_eq w lv m false (Session c d0 0 (filter (let_through lv) (said ++ [Log (lit "Started")])) 0)) as X.
    cbn [ss_builds ss_context ss_disk] in X. cbn zeta in X. rewrite B in X. rewrite X. eexists. split; [reflexivity|]. cbn [ss_disk ss_shown]. split; [intros q o; rewrite <- OD; apply F|].
    apply nr_app; [apply nr_filter, nr_app; [exact NR|intros e [I|[]]; discriminate]|]. unfold news. rewrite B. cbn [snd]. apply said_nr.
Qed.
Lemma untroubled_later k w : untroubled w -> untroubled (later k w).
Proof. intros (A & B & C & D). split; [intros i; apply A|]. now repeat split. Qed.
Lemma dev_published w lv manifest output evs d s g p dir name r deps d0 ps content statics out : untroubled w -> meant (w_cwd w) manifest (dir ++ [name]) ->
  manifest_says w (dir ++ [name]) d r deps ->
  loads_all (lo_js (w_loader w)) (load_from_source (w_loader w) (w_load_faults w) dir) deps d d0 ps ->
  what (dir ++ [lit "scripts"]) d0 = KNone ->
  dev_command w lv manifest output evs d = Waiting s -> ~ passed p -> 
  manifest_says w (dir ++ [name]) (g (ss_disk s)) r deps ->
  loads_all (lo_js (w_loader w)) (load_from_source (w_loader w) (w_load_faults w) dir) deps (g (ss_disk s)) (g (ss_disk s)) ps ->
  meant dir output out -> ready w dir r ps out content statics (g (ss_disk s)) ->
  exists s', dev_command w lv manifest output (evs ++ [Event g (Some (dir ++ p))]) d = Waiting s' /\
    published w r ps out content statics (ss_disk s') /\ ss_reloads s' = S (ss_reloads s).
Proof.
  intros U M MS L SC E P MS' L' MO R. pose proof R as (SC' & _). apply what_none in SC. apply what_none in SC'.
  destruct (as_restarted w lv manifest output evs d s g p dir name r deps d0 ps M MS L E MS' L') as (A & B & loading & l & C1 & C2 & C3 & C4); [congruence|exact P|].
  destruct (dev_first (later (ss_builds s) w) lv manifest output (g (ss_disk s)) dir name r deps (g (ss_disk s)) ps content statics out (untroubled_later _ _ U) M MS' L' MO R) as (f & F & PB & NR).
  rewrite F in A, B, C2. cbn [disk_of ended shown_of] in A, B, C2. destruct (dev_command w lv manifest output (evs ++ _) d) as [s'|]; [|discriminate]. exists s'. split; [reflexivity|].
  cbn [disk_of] in A. rewrite A. split; [exact PB|]. specialize (C4 eq_refl). cbn [reloads_of] in C4. rewrite C4.
  replace (reported l) with false; [reflexivity|]. symmetry. destruct (reported l) eqn:X; [|reflexivity]. apply existsb_exists in X. destruct X as (i & I & C). destruct i; try discriminate.
  exfalso. apply (NR e). rewrite C2. apply in_app_iff. right. apply in_app_iff. now right.
Qed.
