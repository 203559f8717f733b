(** LiveFacts.v -- executions of [stuart dev] on a real disk (C50, C51). *)

From Coq Require Import String List NArith ZArith Bool Lia.
From Verif Require Import Text Utf8 Json Base Syntax Parse Tree Interp Build Disk Cli Load Dev New Report Main Server Live.
From Verif Require Import SpecScope SpecTree SpecDisk SpecProject SpecChars SpecDev SpecMain SpecServer SpecMode SpecLive.
From Verif Require Import TextFacts SiteDisk NewFacts Utf8Facts TreeFacts DiskFacts CliFacts AgainFacts ReportFacts DevFacts MainFacts ServerFacts ModeFacts.
Import ListNotations.

(** ** Steps *)
Lemma edit_id s : edit_disk (fun d => d) s = s.
Proof. now destruct s. Qed.
Lemma receive_edit w lv m g p s : receive w lv m (Event (fun d => d) p) (edit_disk g s) = receive w lv m (Event g p) s.
Proof. reflexivity. Qed.
Lemma build_twin w lv m tell s s' : dev_build w lv m tell s = Waiting s' -> twin (ss_context s) (ss_context s').
Proof.
  intros E. unfold dev_build in E. destruct (cli_build _ _ _ _) as [[c' d'] r] eqn:B. destruct (cli_build_twin _ _ _ _ _ _ _ _ (twin_refl _) B) as (_ & _ & T & _ & _).
  destruct r; try discriminate; injection E as <-; exact T.
Qed.
Lemma starts_split c p : starts_build c p = true -> exists r, p = cx_dir c ++ r /\ ~ passed r.
Proof. unfold starts_build. destruct (strip_path _ p) as [r|] eqn:E; [|discriminate]. apply strip_app in E. intros R. exists r. split; [exact E|now apply rebuilds_kept]. Qed.
Lemma starts_join c r : ~ passed r -> starts_build c (cx_dir c ++ r) = true.
Proof. intros R. unfold starts_build. rewrite (proj2 (strip_app _ _ r) eq_refl). now apply rebuilds_kept. Qed.
Lemma starts_passed c r : passed r -> starts_build c (cx_dir c ++ r) = false.
Proof. intros R. unfold starts_build. rewrite (proj2 (strip_app _ _ r) eq_refl). now apply rebuilds_passed. Qed.
Lemma watched_split c p : watched c p = true -> exists r, p = cx_dir c ++ r.
Proof. unfold watched. destruct (strip_path _ p) as [r|] eqn:E; [|discriminate]. apply strip_app in E. now exists r. Qed.
Lemma not_starts c p : watched c p = true -> starts_build c p = false -> exists r, p = cx_dir c ++ r /\ passed r.
Proof.
  intros W S. destruct (watched_split _ _ W) as [r ->]. exists r. split; [reflexivity|]. apply rebuilds_passed. unfold starts_build in S. now rewrite (proj2 (strip_app _ _ r) eq_refl) in S.
Qed.
Lemma starts_dir c c' p : cx_dir c' = cx_dir c -> starts_build c' p = starts_build c p /\ watched c' p = watched c p.
Proof. intros E. unfold starts_build, watched. now rewrite E. Qed.
(** An event that starts a build. *)
Lemma receive_starts w lv m p s : starts_build (ss_context s) p = true ->
  receive w lv m (Event (fun d => d) (Some p)) s = dev_build w lv m true (Session (ss_context s) (ss_disk s) (ss_builds s) (detected lv (ss_shown s)) (ss_reloads s)).
Proof. intros R. destruct (starts_split _ _ R) as (r & -> & P). now apply (receive_kept w lv m (fun d => d)). Qed.
Lemma receive_passes w lv m p s : watched (ss_context s) p = true -> starts_build (ss_context s) p = false -> exists l,
  receive w lv m (Event (fun d => d) (Some p)) s = Waiting (Session (ss_context s) (ss_disk s) (ss_builds s) (ss_shown s ++ l) (ss_reloads s)).
Proof. intros W R. destruct (not_starts _ _ W R) as (r & -> & P). destruct (receive_passed w lv m (fun d => d) r s P) as [l E]. exists l. exact E. Qed.
Lemma receive_twin w lv m g p s s' : receive w lv m (Event g p) s = Waiting s' -> twin (ss_context s) (ss_context s').
Proof.
  intros E. unfold receive in E. cbn zeta in E. destruct (match ev_path _ with Some p => _ | None => _ end) as [r|]; [|discriminate]. destruct (ignored_event r); [injection E as <-; apply twin_refl|].
  destruct (last_is _ r); [injection E as <-; apply twin_refl|]. now apply build_twin in E.
Qed.
Lemma step_twin w lv m a x y s s' : live_step w lv m a x y -> li_server x = Waiting s -> li_server y = Waiting s' -> twin (ss_context s) (ss_context s').
Proof.
  intros ST X Y. destruct ST; cbn [li_server] in *; try (injection X as <-); try (injection Y as <-; apply twin_refl); now apply receive_twin in Y.
Qed.
Lemma step_waiting w lv m a x y : live_step w lv m a x y -> exists s, li_server x = Waiting s.
Proof. intros ST. destruct ST; eexists; reflexivity. Qed.
Lemma run_app w lv m a b x y z : live_run w lv m a x y -> live_run w lv m b y z -> live_run w lv m (a ++ b) x z.
Proof. intros A B. induction A; [exact B|]. cbn [app]. econstructor; [eassumption|]. now apply IHA. Qed.
Lemma run_waiting w lv m tr x y s' : live_run w lv m tr x y -> li_server y = Waiting s' -> exists s, li_server x = Waiting s /\ twin (ss_context s) (ss_context s').
Proof.
  intros R. induction R as [x|a x y tr z ST R IH]; intros E; [exists s'; split; [exact E|apply twin_refl]|]. destruct (IH E) as (s1 & E1 & T1).
  destruct (step_waiting _ _ _ _ _ _ ST) as [s0 E0]. exists s0. split; [exact E0|]. apply (twin_trans _ (ss_context s1)); [now apply (step_twin _ _ _ _ _ _ _ _ ST)|exact T1].
Qed.

(** ** The events the program takes *)
Definition after (w : world) (lv : level) (m : machine) (x0 x : server) : Prop :=
  exists evs, match x with
  | Waiting s => exists s0 g, watch w lv m evs x0 = Waiting s0 /\ s = edit_disk g s0
  | Over _ _ _ => watch w lv m evs x0 = x
  end.
Lemma after_refl w lv m x : after w lv m x x.
Proof. exists []. rewrite watch_stay. destruct x as [s|]; [|reflexivity]. exists s, (fun d => d). now rewrite edit_id. Qed.
Lemma after_receive w lv m x0 s p : after w lv m x0 (Waiting s) -> after w lv m x0 (receive w lv m (Event (fun d => d) (Some p)) s).
Proof.
  intros (evs & s0 & g & E & ->). rewrite receive_edit. exists (evs ++ [Event g (Some p)]). rewrite watch_app, E, watch_one.
  destruct (receive w lv m (Event g (Some p)) s0) as [s1|]; [|reflexivity]. exists s1, (fun d => d). now rewrite edit_id.
Qed.
Lemma after_step w lv m a x y x0 : live_step w lv m a x y -> after w lv m x0 (li_server x) -> after w lv m x0 (li_server y).
Proof.
  intros ST A. destruct ST as [s l q st g p|s e l q st|s l q|s l o p q B|s l o p q own B OW|s l q|s l q]; cbn [li_server] in *; try exact A; [|now apply after_receive|now apply after_receive].
  destruct A as (evs & s0 & g0 & E & ->). exists evs, s0, (fun d => g (g0 d)). now split.
Qed.
Lemma after_run w lv m tr x y x0 : live_run w lv m tr x y -> after w lv m x0 (li_server x) -> after w lv m x0 (li_server y).
Proof. intros R. induction R as [|a x y tr z ST R IH]; [auto|]. intros A. apply IH. now apply (after_step _ _ _ _ _ _ _ ST). Qed.
(** The number of builds. *)
Lemma builds_step w lv m a x y s s' : live_step w lv m a x y -> li_server x = Waiting s -> li_server y = Waiting s' -> ss_builds s' = SpecDev.builds [a] + ss_builds s.
Proof.
  intros ST X Y. destruct ST as [s0 l q st g p|s0 e l q st|s0 l q|s0 l o p q B|s0 l o p q own B OW|s0 l q|s0 l q]; cbn [li_server] in *; injection X as <-; try (injection Y as <-; reflexivity).
  - unfold receive in Y. cbn [ev_path ev_edit] in Y. unfold starts_build in B. destruct (strip_path _ p) as [r|]; [|discriminate]. unfold rebuilds in B. destruct (ignored_event r); [now injection Y as <-|].
    destruct (last_is _ r); [now injection Y as <-|]. discriminate.
  - rewrite (receive_starts _ _ _ _ _ B) in Y. unfold dev_build in Y. cbn [ss_builds ss_context ss_disk] in Y. destruct (cli_build _ _ _ _) as [[c' d'] []]; try discriminate; now injection Y as <-.
Qed.
Lemma builds_run w lv m tr x y s s' : live_run w lv m tr x y -> li_server x = Waiting s -> li_server y = Waiting s' -> ss_builds s' = SpecDev.builds (steps tr) + ss_builds s.
Proof.
  intros R. revert s. induction R as [x|a x y tr z ST R IH]; intros s X Y; [rewrite X in Y; injection Y as <-; reflexivity|].
  destruct (run_waiting _ _ _ _ _ _ _ R Y) as (s1 & Y1 & _). rewrite (IH s1 Y1 Y), (builds_step _ _ _ _ _ _ _ _ ST X Y1). unfold steps. cbn [map fst]. destruct a; cbn [SpecDev.builds]; lia.
Qed.
(** Every sequence of events can be made by a user who waits for each build. *)
Lemma run_one w lv m s : forall g p, watched (ss_context s) p = true -> exists tr, live_run w lv m tr (Live (Waiting s) [] [] Ready)
  (Live (receive w lv m (Event g (Some p)) s) [] [] (match receive w lv m (Event g (Some p)) s with Waiting _ => Ready | Over _ _ _ => if starts_build (ss_context s) p then Working else Ready end)).
Proof.
  intros g p W. rewrite <- (receive_edit w lv m g). set (s' := edit_disk g s). assert (C : ss_context s' = ss_context s) by reflexivity.
  assert (R0 : live_run w lv m [(LEdit p, Live (Waiting s) [] [] Ready); (LOther, Live (Waiting s') [(false, p)] [] Ready)] (Live (Waiting s) [] [] Ready) (Live (Waiting s') [] [(false, p)] Ready)).
  { eapply lr_cons; [apply (ls_edit _ _ _ s [] [] Ready g p)|]. cbn [noticed app]. rewrite W. eapply lr_cons; [apply ls_deliver|]. constructor. }
  destruct (starts_build (ss_context s) p) eqn:B.
  - assert (R1 := ls_build w lv m s' [] false p [] [] B (Forall_nil _)). cbn [map app] in R1. destruct (receive w lv m _ s') as [s1|d1 e1 l1].
    + eexists. eapply run_app; [exact R0|]. eapply lr_cons; [exact R1|]. eapply lr_cons; [apply ls_done|]. eapply lr_cons; [apply ls_empty|]. constructor.
    + eexists. eapply run_app; [exact R0|]. eapply lr_cons; [exact R1|]. constructor.
  - assert (R1 := ls_pass w lv m s' [] false p [] B). eexists. eapply run_app; [exact R0|]. eapply lr_cons; [|constructor].
    destruct (receive w lv m _ s') as [s1|d1 e1 l1]; exact R1.
Qed.
Lemma run_all w lv m evs : forall s, Forall (fun ev => exists p, ev_path ev = Some p /\ watched (ss_context s) p = true) evs ->
  exists tr y, live_run w lv m tr (Live (Waiting s) [] [] Ready) y /\ li_server y = watch w lv m evs (Waiting s) /\ (forall s', li_server y = Waiting s' -> at_rest y).
Proof.
  induction evs as [|ev evs IH]; intros s F; [exists []; eexists; split; [constructor|]; split; [reflexivity|]; intros; now repeat split|].
  inversion F as [|? ? (p & EP & W) F']; subst. destruct ev as [g p']. cbn [ev_path] in EP. subst p'. destruct (run_one w lv m s g p W) as [tr R]. cbn [watch].
  destruct (receive w lv m (Event g (Some p)) s) as [s1|d1 e1 l1] eqn:RC.
  - assert (T := receive_twin _ _ _ _ _ _ _ RC). destruct (IH s1) as (tr2 & y & R2 & E2 & S2).
    { eapply Forall_impl; [|exact F']. cbn. intros ev (q & E & Q). exists q. split; [exact E|]. now rewrite (proj2 (starts_dir _ (ss_context s1) q (twin_dir _ _ T))). }
    exists (tr ++ tr2), y. split; [now apply (run_app _ _ _ _ _ _ _ _ R R2)|]. now split.
  - rewrite watch_over. exists tr. eexists. split; [exact R|]. cbn [li_server]. split; [reflexivity|discriminate].
Qed.

(** ** Events are about the project *)
Definition inside (x : live) : Prop := forall s o p, li_server x = Waiting s -> In (o, p) (li_late x ++ li_queue x) -> watched (ss_context s) p = true.
Lemma inside_step w lv m a x y : live_step w lv m a x y -> inside x -> inside y.
Proof.
  intros ST I s' o' p' Y J.
  assert (G : forall s, li_server x = Waiting s -> In (o', p') (li_late x ++ li_queue x) -> watched (ss_context s') p' = true).
  { intros s X K. rewrite (proj2 (starts_dir _ (ss_context s') p' (twin_dir _ _ (step_twin _ _ _ _ _ _ _ _ ST X Y)))). now apply (I s o' p'). }
  destruct ST as [s0 l q st g p|s0 e l q st|s0 l q|s0 l o p q B|s0 l o p q own B OW|s0 l q|s0 l q]; cbn [li_server li_late li_queue] in *.
  - rewrite <- app_assoc in J. apply in_app_iff in J. destruct J as [J|J]; [apply (G _ eq_refl); apply in_app_iff; now left|]. apply in_app_iff in J. destruct J as [J|J]; [|apply (G _ eq_refl); apply in_app_iff; now right].
    injection Y as <-. cbn [edit_disk ss_context]. unfold noticed in J. destruct st; try destruct J; destruct (watched (ss_context s0) p) eqn:W; try destruct J as [J|[]]; try injection J as _ <-; try exact W; destruct J.
  - apply (G _ eq_refl). apply in_app_iff in J. cbn [app]. destruct J as [J|J]; [right; apply in_app_iff; now left|]. apply in_app_iff in J. destruct J as [J|[J|[]]]; [right; apply in_app_iff; now right|now left].
  - now apply (G _ eq_refl).
  - apply (G _ eq_refl). apply in_app_iff. apply in_app_iff in J. destruct J as [J|J]; [now left|right; now right].
  - rewrite <- app_assoc in J. apply in_app_iff in J. destruct J as [J|J]; [apply (G _ eq_refl); apply in_app_iff; now left|]. apply in_app_iff in J. destruct J as [J|J]; [|apply (G _ eq_refl); apply in_app_iff; right; now right].
    apply in_map_iff in J. destruct J as (u & E & J). injection E as _ <-. rewrite Forall_forall in OW. specialize (OW u J). unfold own_event in OW. apply andb_true_iff in OW. destruct OW as [OW _].
    rewrite (proj2 (starts_dir _ (ss_context s') u (twin_dir _ _ (receive_twin _ _ _ _ _ _ _ Y)))). exact OW.
  - now apply (G _ eq_refl).
  - apply (G _ eq_refl). rewrite app_nil_r in J. apply in_app_iff. now left.
Qed.
Lemma inside_run w lv m tr x y : live_run w lv m tr x y -> inside x -> inside y.
Proof. intros R. induction R as [|a x y tr z ST R IH]; [auto|]. intros A. apply IH. now apply (inside_step _ _ _ _ _ _ ST). Qed.

(** ** After the last change *)
Section Last.
Variables (w : world) (lv : level) (m : machine) (s1 : session).
(** What holds of the disk and the context when a build has been made since the change. *)
Variable Q : session -> Prop.
Hypothesis Q_build : forall s s', (ss_context s = ss_context s1 /\ ss_disk s = ss_disk s1 /\ ss_reloads s = ss_reloads s1 /\ (exists l, ss_shown s = ss_shown s1 ++ l)) \/ Q s ->
  dev_build w lv m true (Session (ss_context s) (ss_disk s) (ss_builds s) (detected lv (ss_shown s)) (ss_reloads s)) = s' -> exists s2, s' = Waiting s2 /\ Q s2.
Hypothesis Q_pass : forall s l, Q s -> Q (Session (ss_context s) (ss_disk s) (ss_builds s) (ss_shown s ++ l) (ss_reloads s)).

Definition hopeful (x : live) : Prop := exists s, li_server x = Waiting s /\
  ((li_stage x = Ready /\ ss_disk s = ss_disk s1 /\ ss_context s = ss_context s1 /\ ss_reloads s = ss_reloads s1 /\ (exists l, ss_shown s = ss_shown s1 ++ l) /\
    exists o p, In (o, p) (li_late x ++ li_queue x) /\ starts_build (ss_context s1) p = true) \/ (li_stage x <> Starting /\ Q s)).
Lemma hopeful_step a x y : no_edit a -> inside x -> live_step w lv m a x y -> hopeful x -> hopeful y.
Proof.
  intros N I ST (s & X & H). destruct ST as [s0 l q st g p|s0 e l q st|s0 l q|s0 l o p q B|s0 l o p q own B OW|s0 l q|s0 l q]; cbn [li_server li_stage li_late li_queue] in *; injection X as <-.
  - now destruct (N p).
  - exists s0. split; [reflexivity|]. cbn [li_stage li_late li_queue]. destruct H as [(A1 & A2 & A3 & A4 & A5 & o & p & J & S)|H]; [|now right]. left. repeat (split; [assumption|]). exists o, p. split; [|exact S].
    cbn [app] in J. apply in_app_iff. rewrite in_app_iff. destruct J as [->|J]; [right; right; now left|]. apply in_app_iff in J. destruct J as [J|J]; [now left|right; now left].
  - destruct H as [(A & _)|[A _]]; [discriminate|contradiction].
  - assert (W : watched (ss_context s0) p = true) by (apply (I s0 o p eq_refl); cbn [li_late li_queue]; apply in_app_iff; right; now left).
    destruct (receive_passes w lv m p s0 W B) as [l' E]. rewrite E. eexists. split; [reflexivity|]. cbn [li_stage li_late li_queue ss_disk ss_context ss_reloads ss_shown].
    destruct H as [(A1 & A2 & A3 & A4 & (sh & A5) & o' & p' & J & S)|[A H]].
    + left. do 4 (split; [assumption|]). split; [exists (sh ++ l'); now rewrite A5, app_assoc|]. exists o', p'. split; [|exact S]. apply in_app_iff. apply in_app_iff in J. destruct J as [J|[J|J]]; [now left| |now right].
      injection J as _ ->. rewrite A3 in B. congruence.
    + right. split; [discriminate|]. now apply Q_pass.
  - rewrite (receive_starts _ _ _ _ _ B).
    assert (H0 : (ss_context s0 = ss_context s1 /\ ss_disk s0 = ss_disk s1 /\ ss_reloads s0 = ss_reloads s1 /\ (exists l, ss_shown s0 = ss_shown s1 ++ l)) \/ Q s0).
    { destruct H as [(A1 & A2 & A3 & A4 & A5 & _)|[_ H]]; [left; now repeat (split; [assumption|])|now right]. }
    destruct (Q_build s0 _ H0 eq_refl) as (s2 & -> & H2). exists s2. split; [reflexivity|]. right. split; [discriminate|exact H2].
  - destruct H as [(A & _)|[_ H]]; [discriminate|]. exists s0. split; [reflexivity|]. right. split; [discriminate|exact H].
  - destruct H as [(A & _)|[_ H]]; [discriminate|]. exists s0. split; [reflexivity|]. right. split; [discriminate|exact H].
Qed.
Lemma hopeful_run tr x y : untouched_run tr -> live_run w lv m tr x y -> inside x -> hopeful x -> hopeful y.
Proof.
  intros U R. induction R as [|a x y tr z ST R IH]; [auto|]. intros I H. apply IH.
  - intros p u J. apply (U p u). now right.
  - now apply (inside_step _ _ _ _ _ _ ST).
  - apply (hopeful_step a x y); try assumption. intros p ->. apply (U p x). now left.
Qed.
Lemma hopeful_ends x : at_rest x -> hopeful x -> exists s, li_server x = Waiting s /\ Q s.
Proof.
  intros (R1 & R2 & R3) (s & X & [(_ & _ & _ & _ & _ & o & p & J & _)|[_ H]]); [rewrite R2, R3 in J; destruct J|]. now exists s.
Qed.
End Last.

(** ** A change that builds, and one that does not *)
Lemma last_good w lv m s1 x1 tr x2 c1 d1 : (forall k, w_build_faults w k = no_faults) -> inside x1 -> li_server x1 = Waiting s1 -> li_stage x1 = Ready ->
  (exists o p, In (o, p) (li_late x1 ++ li_queue x1) /\ starts_build (ss_context s1) p = true) ->
  cli_build m no_faults (ss_context s1) (ss_disk s1) = (c1, d1, COk) -> idle_scripts m (ss_context s1) -> ent_distinct (ss_disk s1) -> inward_project (ss_context s1) (ss_disk s1) ->
  lookup (cx_dir (ss_context s1) ++ [lit "temp"]) (ss_disk s1) = None ->
  Forall (fun n => apart (output_dir (ss_context s1)) (cx_dir (ss_context s1) ++ [n])) [lit "content"; lit "static"; lit "temp"; lit "metadata.json"] ->
  untouched_run tr -> live_run w lv m tr x1 x2 -> at_rest x2 ->
  exists s2, li_server x2 = Waiting s2 /\ (forall q, what q (ss_disk s2) = what q d1) /\ ss_reloads s1 < ss_reloads s2.
Proof.
  intros NF IN X1 ST AW B ID D IP NT AP U R RE. set (c := ss_context s1) in *.
  set (Q := fun s => ss_reloads s1 < ss_reloads s /\ (forall q, what q (ss_disk s) = what q d1) /\
    exists dp, twin c (ss_context s) /\ cli_build m no_faults c dp = (c1, ss_disk s, COk) /\ ent_distinct dp /\ inward_project c dp /\ lookup (cx_dir c ++ [lit "temp"]) dp = None).
  assert (T1 : twin c c1) by (destruct (cli_build_twin _ _ _ _ _ _ _ _ (twin_refl c) B) as (_ & _ & T & _); exact T).
  destruct (hopeful_ends s1 Q x2 RE) as (s2 & X2 & H1 & H2 & _).
  { refine (hopeful_run w lv m s1 Q _ _ tr x1 x2 U R IN _).
    - intros s s' H E. pose proof (dev_build_eq w lv m true (Session (ss_context s) (ss_disk s) (ss_builds s) (detected lv (ss_shown s)) (ss_reloads s))) as DB.
      cbn zeta in DB. cbn [ss_context ss_disk ss_builds ss_shown ss_reloads] in DB. rewrite NF in DB. destruct H as [(A1 & A2 & A3 & _)|(A1 & A2 & dp & T & BP & D' & IP' & NT')].
      + rewrite A1, A2 in DB. fold c in DB. rewrite B in DB. subst s'. rewrite A1, A2. fold c. rewrite DB. eexists. split; [reflexivity|]. unfold Q. cbn [ss_reloads ss_disk ss_context].
        split; [rewrite A3; lia|]. split; [reflexivity|]. exists (ss_disk s1). now repeat (split; [assumption|]).
      + destruct (build_again m c dp c1 (ss_disk s) c BP (or_introl eq_refl) ID D' IP' NT' AP) as (d2 & B2 & W2 & D2 & SS).
        destruct (cli_build_twin _ _ _ _ _ _ _ _ T B2) as (c1' & B2' & _ & T' & _). rewrite B2' in DB. subst s'. rewrite DB. eexists. split; [reflexivity|]. unfold Q. cbn [ss_reloads ss_disk ss_context].
        split; [lia|]. split; [intros q; now rewrite W2|]. exists (ss_disk s). split; [now apply (twin_trans _ (ss_context s))|]. split; [exact B2|]. split; [exact D2|]. split.
        * destruct IP' as (P1 & P2 & P3 & P4). split; [|split; [|split; [|exact P4]]]; intros e E; rewrite SS in E by (cbn; tauto); [now apply P1|now apply P2|now apply P3].
        * rewrite SS by (cbn; tauto). exact NT'.
    - intros s l (H1 & H2 & dp & T & H3). split; [exact H1|]. split; [exact H2|]. exists dp. now split.
    - exists s1. split; [exact X1|]. left. split; [exact ST|]. do 3 (split; [reflexivity|]). split; [exists []; now rewrite app_nil_r|exact AW]. }
  exists s2. now repeat split.
Qed.
Lemma last_bad w lv m s1 x1 tr x2 c1 e : (forall k, w_build_faults w k = no_faults) -> inside x1 -> li_server x1 = Waiting s1 -> li_stage x1 = Ready ->
  (exists o p, In (o, p) (li_late x1 ++ li_queue x1) /\ starts_build (ss_context s1) p = true) ->
  cli_build m no_faults (ss_context s1) (ss_disk s1) = (c1, ss_disk s1, CErr e) ->
  untouched_run tr -> live_run w lv m tr x1 x2 -> at_rest x2 ->
  exists s2 l, li_server x2 = Waiting s2 /\ ss_disk s2 = ss_disk s1 /\ ss_reloads s2 = ss_reloads s1 /\ ss_shown s2 = ss_shown s1 ++ l /\ In (Report (main_error_of e)) l.
Proof.
  intros NF IN X1 ST AW B U R RE. set (c := ss_context s1) in *.
  set (Q := fun s => ss_disk s = ss_disk s1 /\ ss_reloads s = ss_reloads s1 /\ twin c (ss_context s) /\ exists l, ss_shown s = ss_shown s1 ++ l /\ In (Report (main_error_of e)) l).
  assert (T1 : twin c c1) by (destruct (cli_build_twin _ _ _ _ _ _ _ _ (twin_refl c) B) as (_ & _ & T & _); exact T).
  destruct (hopeful_ends s1 Q x2 RE) as (s2 & X2 & H1 & H2 & _ & l & H3 & H4).
  { refine (hopeful_run w lv m s1 Q _ _ tr x1 x2 U R IN _).
    - intros s s' H E.
      assert (A : twin c (ss_context s) /\ ss_disk s = ss_disk s1 /\ ss_reloads s = ss_reloads s1 /\ exists l, ss_shown s = ss_shown s1 ++ l).
      { destruct H as [(A1 & A2 & A3 & A4)|(A1 & A2 & A3 & l & A4 & _)]; [rewrite A1; split; [apply twin_refl|now split]|]. split; [exact A3|]. split; [exact A1|]. split; [exact A2|]. now exists l. }
      clear H. destruct A as (T & A2 & A3 & l & A4).
      pose proof (dev_build_eq w lv m true (Session (ss_context s) (ss_disk s) (ss_builds s) (detected lv (ss_shown s)) (ss_reloads s))) as DB.
      cbn zeta in DB. cbn [ss_context ss_disk ss_builds ss_shown ss_reloads] in DB. rewrite NF, A2 in DB. destruct (cli_build_twin _ _ _ _ _ _ _ _ T B) as (c1' & B' & _ & T' & _). rewrite B' in DB. subst s'. rewrite A2, DB.
      eexists. split; [reflexivity|]. unfold Q. cbn [ss_reloads ss_disk ss_context ss_shown]. split; [reflexivity|]. split; [exact A3|]. split; [now apply (twin_trans _ (ss_context s))|].
      unfold detected. rewrite A4, <- !app_assoc. eexists. split; [reflexivity|]. apply in_app_iff. right. apply in_app_iff. right. unfold news. rewrite B'. cbn [snd]. apply in_app_iff. right. apply in_app_iff. right. now left.
    - intros s l (H1 & H2 & T & l' & H3 & H4). split; [exact H1|]. split; [exact H2|]. split; [exact T|]. exists (l' ++ l). split; [cbn [ss_shown]; now rewrite H3, app_assoc|apply in_app_iff; now left].
    - exists s1. split; [exact X1|]. left. split; [exact ST|]. do 3 (split; [reflexivity|]). split; [exists []; now rewrite app_nil_r|exact AW]. }
  exists s2, l. now repeat split.
Qed.

(** ** From the command line *)
(** A build that runs comes to its end, and the event is still there. *)
Lemma to_ready w lv m dir tr x1 x2 s1 : live_run w lv m tr x1 x2 -> li_server x1 = Waiting s1 -> untouched_run tr -> at_rest x2 -> awaits dir x1 -> not_lost dir tr ->
  exists ta tb y, tr = ta ++ tb /\ live_run w lv m ta x1 y /\ live_run w lv m tb y x2 /\ li_server y = Waiting s1 /\ li_stage y = Ready /\ awaits dir y.
Proof.
  intros R. revert s1. induction R as [x|a x y tr z ST R IH]; intros s1 W U RE AW NL.
  - exists [], [], x. split; [reflexivity|]. split; [constructor|]. split; [constructor|]. split; [exact W|]. split; [apply RE|exact AW].
  - destruct (li_stage x) eqn:G.
    2:{ exists [], ((a, x) :: tr), x. split; [reflexivity|]. split; [constructor|]. split; [econstructor; eassumption|]. auto. }
    all: assert (U' : untouched_run tr) by (intros p v I; apply (U p v); now right).
    all: assert (NL' : not_lost dir tr) by (intros before b v rest E NR; apply (NL ((a, x) :: before) b v rest); [now rewrite E|intros b' v' [I|I]; [injection I as <- <-; rewrite G; discriminate|now apply (NR b')]]).
    all: assert (K : li_server y = Waiting s1 /\ awaits dir y).
    1,3,5: inversion ST; subst; cbn [li_stage li_server] in *; try discriminate G; try (exfalso; eapply (U p); left; reflexivity); (split; [exact W|]).
    all: try (destruct AW as (o & p & I & P); cbn [li_late li_queue] in *; exists o, p; cbn [li_late li_queue]; split; [|exact P]; rewrite !in_app_iff in *; cbn [In] in *; tauto).
    1:{ destruct (NL [] _ _ tr eq_refl) as (o & p & I & P); [intros b v []|reflexivity|]. exists o, p. split; [apply in_app_iff; now left|exact P]. }
    all: destruct K as [W' A']; destruct (IH s1 W' U' RE A' NL') as (ta & tb & v & -> & T1 & T2 & T3); exists ((a, x) :: ta), tb, v; (split; [reflexivity|]); (split; [econstructor; eassumption|]); auto.
Qed.
Section Started.
Variables (w : world) (lv : level) (manifest output : text) (d : ent) (dir : path) (name : text) (r : raw_config) (deps : list (text * text)) (d0 : ent) (ps : list plugin).
Hypothesis M : meant (w_cwd w) manifest (dir ++ [name]).
Hypothesis MS : manifest_says w (dir ++ [name]) d r deps.
Hypothesis L : loads_all (lo_js (w_loader w)) (load_from_source (w_loader w) (w_load_faults w) dir) deps d d0 ps.
Notation m := (dev_machine w manifest output).
Notation c := (init r ps dir output (lit "development") d0).

Lemma machine_named : m = machine_of w (dir ++ [name]) output (lit "development").
Proof. unfold dev_machine. pose proof M as M'. apply join_meant in M'. now rewrite M'. Qed.
Lemma live_inside tr x : live_run w lv m tr (live_init w lv manifest output d) x -> inside x.
Proof. intros R. apply (inside_run _ _ _ _ _ _ R). intros s o p _ []. Qed.
Lemma live_twin tr x s : live_run w lv m tr (live_init w lv manifest output d) x -> li_server x = Waiting s -> twin c (ss_context s).
Proof.
  intros R X. destruct (run_waiting _ _ _ _ _ _ _ R X) as (s0 & E & T). cbn [live_init li_server] in E. apply (twin_trans _ (ss_context s0)); [|exact T].
  destruct (dev_started w lv manifest output d dir name r deps d0 ps M MS L) as (said & _ & _ & D). cbn zeta in D. rewrite (D []), watch_stay in E. exact (build_twin _ _ _ _ _ _ E).
Qed.
Lemma live_after tr x : live_run w lv m tr (live_init w lv manifest output d) x -> after w lv m (li_server (live_init w lv manifest output d)) (li_server x).
Proof. intros R. apply (after_run _ _ _ _ _ _ _ R). apply after_refl. Qed.
Lemma awaits_starts s x : twin c (ss_context s) -> awaits dir x -> exists o p, In (o, p) (li_late x ++ li_queue x) /\ starts_build (ss_context s) p = true.
Proof.
  intros T (o & p & J & P). exists o, (dir ++ p). split; [exact J|]. assert (DIR : cx_dir (ss_context s) = dir) by now rewrite (twin_dir _ _ T). rewrite <- DIR. now apply starts_join.
Qed.

Variables (tr0 : list (label * live)) (x1 : live) (s1 : session).
Hypothesis NF : forall k, w_build_faults w k = no_faults.
Hypothesis R1 : live_run w lv m tr0 (live_init w lv manifest output d) x1.
Hypothesis X1 : li_server x1 = Waiting s1.
Hypothesis AW : awaits dir x1.
Hypothesis MS1 : manifest_says w (dir ++ [name]) (ss_disk s1) r deps.
Hypothesis L1 : loads_all (lo_js (w_loader w)) (load_from_source (w_loader w) (w_load_faults w) dir) deps (ss_disk s1) (ss_disk s1) ps.
Hypothesis SC : lookup (dir ++ [lit "scripts"]) (ss_disk s1) = lookup (dir ++ [lit "scripts"]) d0.
Hypothesis ML : modeless w (dir ++ [name]) output.
Hypothesis UP : unaware_project w (dir ++ [name]) dir output ps (ss_disk s1).

Lemma main_then : exists c1 d1 x said, cli_build m no_faults (ss_context s1) (ss_disk s1) = (c1, d1, x) /\ main w lv (CmdBuild manifest output) (ss_disk s1) = (d1, exit_of x, said).
Proof.
  destruct (main_news w lv manifest output (ss_disk s1) dir name r deps (ss_disk s1) ps M MS1 L1 ML UP) as (loading & _ & X). cbn zeta in X. rewrite <- machine_named, NF in X.
  assert (C0 : init r ps dir output (lit "development") (ss_disk s1) = c) by (unfold init; now rewrite SC). rewrite C0 in X.
  pose proof (live_twin _ _ _ R1 X1) as T. destruct (cli_build m no_faults c (ss_disk s1)) as [[c0 d1] x] eqn:B. destruct (cli_build_twin _ _ _ _ _ _ _ _ T B) as (c1 & B' & _).
  exists c1, d1, x. eexists. split; [exact B'|exact X].
Qed.
Lemma live_good tr x2 d' said : not_lost dir tr -> main w lv (CmdBuild manifest output) (ss_disk s1) = (d', Exit 0, said) ->
  idle_scripts m c -> ent_distinct (ss_disk s1) -> inward_project c (ss_disk s1) -> lookup (dir ++ [lit "temp"]) (ss_disk s1) = None ->
  Forall (fun n => apart (join_path dir output) (dir ++ [n])) [lit "content"; lit "static"; lit "temp"; lit "metadata.json"] ->
  untouched_run tr -> live_run w lv m tr x1 x2 -> at_rest x2 ->
  exists s2, li_server x2 = Waiting s2 /\ (forall q, what q (ss_disk s2) = what q d') /\ ss_reloads s1 < ss_reloads s2.
Proof.
  intros NL MN ID D IP NT AP U R RE. destruct (to_ready _ _ _ _ _ _ _ _ R X1 U RE AW NL) as (ta & tb & y & -> & Ra & Rb & Y & ST & AY).
  assert (Ry : live_run w lv m (tr0 ++ ta) (live_init w lv manifest output d) y) by (eapply run_app; eassumption).
  assert (Ub : untouched_run tb) by (intros p v I; apply (U p v); apply in_app_iff; now right).
  destruct main_then as (c1 & d1 & x & said' & B & MN'). rewrite MN in MN'. injection MN' as -> E _. destruct x; try discriminate. clear E.
  pose proof (live_twin _ _ _ R1 X1) as T. pose proof T as ((T1 & T2 & T3 & T4) & T5 & T6 & T7).
  apply (last_good w lv m s1 y tb x2 c1 d1); try assumption.
  - exact (live_inside _ _ Ry).
  - now apply (awaits_starts s1 y).
  - intros n e. rewrite T5, T6. apply ID.
  - destruct IP as (P1 & P2 & P3 & P4). unfold inward_project. rewrite T4, T2. now repeat split.
  - rewrite T4. exact NT.
  - unfold output_dir. rewrite T4, T7. exact AP.
Qed.
Lemma live_bad tr x2 said : not_lost dir tr -> main w lv (CmdBuild manifest output) (ss_disk s1) = (ss_disk s1, Exit 1, said) ->
  untouched_run tr -> live_run w lv m tr x1 x2 -> at_rest x2 ->
  exists s2 l e, li_server x2 = Waiting s2 /\ ss_disk s2 = ss_disk s1 /\ ss_reloads s2 = ss_reloads s1 /\ ss_shown s2 = ss_shown s1 ++ l /\ In (Report e) l /\ In (Report e) said.
Proof.
  intros NL MN U R RE. pose proof (live_twin _ _ _ R1 X1) as T. destruct (to_ready _ _ _ _ _ _ _ _ R X1 U RE AW NL) as (ta & tb & y & -> & Ra & Rb & Y & ST & AY).
  assert (Ry : live_run w lv m (tr0 ++ ta) (live_init w lv manifest output d) y) by (eapply run_app; eassumption).
  assert (Ub : untouched_run tb) by (intros p v I; apply (U p v); apply in_app_iff; now right).
  destruct (main_news w lv manifest output (ss_disk s1) dir name r deps (ss_disk s1) ps M MS1 L1 ML UP) as (loading & _ & X). cbn zeta in X. rewrite <- machine_named, NF in X.
  assert (C0 : init r ps dir output (lit "development") (ss_disk s1) = c) by (unfold init; now rewrite SC). rewrite C0 in X. 
  destruct (cli_build m no_faults c (ss_disk s1)) as [[c0 d1] x] eqn:B. destruct (cli_build_twin _ _ _ _ _ _ _ _ T B) as (c1 & B' & _). rewrite X in MN. injection MN as -> EX SD.
  destruct x as [|e|p|]; try discriminate.
  destruct (last_bad w lv m s1 y tb x2 c1 e NF (live_inside _ _ Ry) Y ST (awaits_starts s1 y T AY) B' Ub Rb RE) as (s2 & l & A1 & A2 & A3 & A4 & A5).
  exists s2, l, (main_error_of e). do 5 (split; [assumption|]). rewrite <- SD. apply in_app_iff. right. unfold news. rewrite B. cbn [snd]. apply in_app_iff. right. apply in_app_iff. right. now left.
Qed.
End Started.
Lemma edit_awaits w lv m dir p x y : live_step w lv m (LEdit (dir ++ p)) x y -> li_stage x <> Starting -> (forall s, li_server x = Waiting s -> cx_dir (ss_context s) = dir) -> ~ passed p -> awaits dir y.
Proof.
  intros ST NS CD P. inversion ST as [s l q st g p0| | | | | |]; subst. cbn [li_stage li_server] in *. specialize (CD s eq_refl). exists false, p. split; [|exact P]. cbn [li_late li_queue].
  apply in_app_iff. left. apply in_app_iff. right. assert (W : watched (ss_context s) (dir ++ p) = true) by (unfold watched; rewrite <- CD, (proj2 (strip_app _ _ p) eq_refl); reflexivity).
  unfold noticed. rewrite W. destruct st; [contradiction|now left|now left|now left].
Qed.

(** ** Builds are caused by changes *)
Definition weigh (dir : path) (l : list (bool * path)) : nat :=
  length (filter (fun e => match strip_path dir (snd e) with Some r => rebuilds r | None => false end) l).
Lemma weigh_app dir a b : weigh dir (a ++ b) = weigh dir a + weigh dir b.
Proof. unfold weigh. now rewrite filter_app, app_length. Qed.
Lemma weigh_cons c o p l : weigh (cx_dir c) ((o, p) :: l) = (if starts_build c p then 1 else 0) + weigh (cx_dir c) l.
Proof. unfold weigh, starts_build. cbn [filter snd]. destruct (strip_path (cx_dir c) p) as [r|]; [|reflexivity]. now destruct (rebuilds r). Qed.
Lemma own_harmless m s p : ordinary s -> own_event m (ss_context s) (ss_disk s) p = true -> starts_build (ss_context s) p = false.
Proof.
  intros (O1 & O2 & O3 & O4 & O5) E. unfold own_event in E. rewrite O1, O2 in E. cbn [app] in E. apply andb_true_iff in E. destruct E as [W E].
  destruct (watched_split _ _ W) as [r ->]. apply starts_passed. apply existsb_exists in E. destruct E as (q & I & E). destruct (strip_path q _) as [u|] eqn:ES; [|discriminate]. apply strip_app in ES.
  apply (own_ignored m (ss_context s) (ss_disk s) q r); try assumption. now exists u.
Qed.
Lemma weigh_own m s own : ordinary s -> Forall (fun p => own_event m (ss_context s) (ss_disk s) p = true) own -> weigh (cx_dir (ss_context s)) (map (pair true) own) = 0.
Proof.
  intros O F. induction own as [|p own IH]; [reflexivity|]. inversion F; subst. cbn [map]. rewrite weigh_cons, (own_harmless m s p O) by assumption. now apply IH.
Qed.
Definition weight (dir : path) (x : live) : nat := weigh dir (li_late x) + weigh dir (li_queue x).
Definition at_dir (dir : path) (x : live) : Prop := forall s, li_server x = Waiting s -> cx_dir (ss_context s) = dir.
Lemma at_dir_step w lv m dir a x y : live_step w lv m a x y -> at_dir dir x -> at_dir dir y.
Proof.
  intros ST A s' Y. destruct (step_waiting _ _ _ _ _ _ ST) as [s X]. rewrite (twin_dir _ _ (step_twin _ _ _ _ _ _ _ _ ST X Y)). now apply A.
Qed.
Lemma count_step w lv m dir a x y : at_dir dir x -> ordinary_live x -> live_step w lv m a x y -> weight dir y + SpecDev.builds [a] <= weight dir x + edits [a].
Proof.
  intros AD O ST. destruct ST as [s l q st g p|s e l q st|s l q|s l o p q B|s l o p q own B OW|s l q|s l q]; unfold weight; cbn [li_late li_queue SpecDev.builds edits];
    specialize (AD s eq_refl); specialize (O s eq_refl); rewrite <- AD.
  - rewrite weigh_app. assert (K : weigh (cx_dir (ss_context s)) (noticed (ss_context s) st p) <= 1).
    { unfold noticed. destruct st; [cbn; lia| | |]; (destruct (watched (ss_context s) p); [rewrite weigh_cons; destruct (starts_build _ p); cbn; lia|cbn; lia]). }
    lia.
  - rewrite weigh_app. change (e :: l) with ([e] ++ l). rewrite weigh_app. lia.
  - lia.
  - rewrite weigh_cons, B. lia.
  - rewrite weigh_app, (weigh_own m s own O OW), weigh_cons, B. lia.
  - lia.
  - cbn. lia.
Qed.
Lemma count_run w lv m dir tr x y : (forall a z, In (a, z) tr -> ordinary_live z) -> live_run w lv m tr x y -> at_dir dir x -> weight dir y + SpecDev.builds (steps tr) <= weight dir x + edits (steps tr).
Proof.
  intros O R. induction R as [|a x y tr z ST R IH]; intros AD; [cbn; lia|]. pose proof (count_step w lv m dir a x y AD (O a x (or_introl eq_refl)) ST) as H.
  specialize (IH (fun b u J => O b u (or_intror J)) (at_dir_step _ _ _ _ _ _ _ ST AD)). unfold steps in *. cbn [map fst]. destruct a; cbn [SpecDev.builds edits] in *; lia.
Qed.
Lemma live_count w lv m manifest output d tr x : (forall a z, In (a, z) tr -> ordinary_live z) -> live_run w lv m tr (live_init w lv manifest output d) x -> SpecDev.builds (steps tr) <= edits (steps tr).
Proof.
  intros O R. destruct (dev_command w lv manifest output [] d) as [s|d1 e l] eqn:D.
  - pose proof (count_run w lv m (cx_dir (ss_context s)) tr _ x O R) as H. cbn in H. assert (A : at_dir (cx_dir (ss_context s)) (live_init w lv manifest output d)) by (intros s' E; cbn [live_init li_server] in E; congruence).
    specialize (H A). lia.
  - inversion R as [|a x0 y tr' z ST R']; subst; [cbn; lia|]. destruct (step_waiting _ _ _ _ _ _ ST) as [s E]. cbn [live_init li_server] in E. congruence.
Qed.
(** No build is caused by another. *)
Lemma own_step w lv m a x y : ordinary_live x -> (forall s p, li_server x = Waiting s -> In (true, p) (li_late x ++ li_queue x) -> starts_build (ss_context s) p = false) -> live_step w lv m a x y ->
  a <> LBuild true /\ (forall s p, li_server y = Waiting s -> In (true, p) (li_late y ++ li_queue y) -> starts_build (ss_context s) p = false).
Proof.
  intros O H ST.
  assert (G : forall s s' p, li_server x = Waiting s -> li_server y = Waiting s' -> starts_build (ss_context s) p = false -> starts_build (ss_context s') p = false).
  { intros s s' p X Y E. now rewrite (proj1 (starts_dir _ (ss_context s') p (twin_dir _ _ (step_twin _ _ _ _ _ _ _ _ ST X Y)))). }
  destruct ST as [s l q st g p|s e l q st|s l q|s l o p q B|s l o p q own B OW|s l q|s l q]; cbn [li_server li_late li_queue] in *; (split; [try discriminate|]).
  - intros s' p' Y I. apply (G s s' p' eq_refl Y). apply (H s p' eq_refl). rewrite <- app_assoc in I. apply in_app_iff. apply in_app_iff in I. destruct I as [I|I]; [now left|]. right. apply in_app_iff in I. destruct I as [I|I]; [|exact I].
    unfold noticed in I. destruct st; try destruct I; destruct (watched _ p); cbn in I; intuition discriminate.
  - intros s' p' Y I. apply (G s s' p' eq_refl Y). apply (H s p' eq_refl). apply in_app_iff in I. cbn [app]. destruct I as [I|I]; [right; apply in_app_iff; now left|]. apply in_app_iff in I. destruct I as [I|[I|[]]]; [right; apply in_app_iff; now right|now left].
  - intros s' p' Y I. apply (G s s' p' eq_refl Y). now apply (H s p' eq_refl).
  - intros s' p' Y I. apply (G s s' p' eq_refl Y). apply (H s p' eq_refl). apply in_app_iff. apply in_app_iff in I. destruct I as [I|I]; [now left|right; now right].
  - intros E. injection E as ->. rewrite (H s p eq_refl) in B; [discriminate|]. apply in_app_iff. right. now left.
  - intros s' p' Y I. apply (G s s' p' eq_refl Y). rewrite <- app_assoc in I. apply in_app_iff in I. destruct I as [I|I]; [apply (H s p' eq_refl); apply in_app_iff; now left|]. apply in_app_iff in I. destruct I as [I|I].
    + apply in_map_iff in I. destruct I as (u & E & I). injection E as <-. rewrite Forall_forall in OW. apply (own_harmless m s); [now apply O|now apply OW].
    + apply (H s p' eq_refl). apply in_app_iff. right. now right.
  - intros s' p' Y I. apply (G s s' p' eq_refl Y). now apply (H s p' eq_refl).
  - intros s' p' Y I. apply (G s s' p' eq_refl Y). apply (H s p' eq_refl). rewrite app_nil_r in I. apply in_app_iff. now left.
Qed.
Lemma live_never_own w lv m manifest output d tr x : (forall a z, In (a, z) tr -> ordinary_live z) -> live_run w lv m tr (live_init w lv manifest output d) x -> ~ In (LBuild true) (steps tr).
Proof.
  intros O R. assert (H : forall s p, li_server (live_init w lv manifest output d) = Waiting s -> In (true, p) (li_late (live_init w lv manifest output d) ++ li_queue (live_init w lv manifest output d)) -> starts_build (ss_context s) p = false) by (intros s p _ []).
  revert R H. generalize (live_init w lv manifest output d). intros x0 R. induction R as [|a x0 y tr z ST R IH]; intros H; [intros []|].
  destruct (own_step _ _ _ _ _ _ (O a x0 (or_introl eq_refl)) H ST) as [A H']. intros [E|I]; [cbn [fst] in E; subst a; now apply A|]. apply (IH (fun b u J => O b u (or_intror J)) H' I).
Qed.
(** It comes to rest. *)
Definition stage_rank (st : stage) : nat := match st with Starting => 2 | Working => 2 | Emptying => 1 | Ready => 0 end.
Definition bulk (x : live) : nat := 2 * length (li_late x) + length (li_queue x).
Lemma shrinks w lv m dir a x y : at_dir dir x -> ordinary_live x -> no_edit a -> live_step w lv m a x y ->
  weight dir y < weight dir x \/ weight dir y <= weight dir x /\ (stage_rank (li_stage y) < stage_rank (li_stage x) \/ stage_rank (li_stage y) = stage_rank (li_stage x) /\ bulk y < bulk x).
Proof.
  intros AD O N ST. pose proof (count_step w lv m dir a x y AD O ST) as C.
  destruct ST as [s l q st g p|s e l q st|s l q|s l o p q B|s l o p q own B OW|s l q|s l q]; cbn [SpecDev.builds edits] in C; unfold bulk; cbn [li_late li_queue li_stage stage_rank] in *.
  - now destruct (N p).
  - right. split; [lia|]. right. split; [reflexivity|]. rewrite app_length. cbn [length]. lia.
  - right. split; [lia|]. left. lia.
  - right. split; [lia|]. right. split; [reflexivity|]. cbn [length]. lia.
  - left. lia.
  - right. split; [lia|]. left. lia.
  - right. split; [lia|]. left. lia.
Qed.
Lemma live_rests w lv m x : Acc (fun y x => goes_on w lv m x y) x.
Proof.
  destruct (li_server x) as [s|d e l] eqn:X; [|constructor; intros y (_ & a & _ & ST); destruct (step_waiting _ _ _ _ _ _ ST); congruence].
  assert (G : forall dir u r k x, at_dir dir x -> weight dir x <= u -> stage_rank (li_stage x) <= r -> bulk x <= k -> Acc (fun y x => goes_on w lv m x y) x).
  { intros dir. induction u as [u IHu] using (well_founded_induction Wf_nat.lt_wf). induction r as [r IHr] using (well_founded_induction Wf_nat.lt_wf).
    induction k as [k IHk] using (well_founded_induction Wf_nat.lt_wf). intros z AD Hu Hr Hk. constructor. intros y (O & a & N & ST). pose proof (at_dir_step _ _ _ _ _ _ _ ST AD) as AD'.
    destruct (shrinks _ _ _ dir _ _ _ AD O N ST) as [K|[K [J|[J I]]]].
    - apply (IHu (weight dir y) ltac:(lia) (stage_rank (li_stage y)) (bulk y) y AD'); lia.
    - apply (IHr (stage_rank (li_stage y)) ltac:(lia) (bulk y) y AD'); lia.
    - apply (IHk (bulk y) ltac:(lia) y AD'); lia. }
  apply (G (cx_dir (ss_context s)) (weight (cx_dir (ss_context s)) x) (stage_rank (li_stage x)) (bulk x)); try lia. intros s' E. congruence.
Qed.
Lemma live_progress w lv m x s : li_server x = Waiting s -> at_rest x \/ exists a y, no_edit a /\ live_step w lv m a x y.
Proof.
  intros X. destruct x as [sv l q st]. cbn [li_server] in X. subst sv.
  assert (N1 : no_edit LOther) by (intros p; discriminate). assert (N2 : forall o, no_edit (LBuild o)) by (intros o p; discriminate).
  destruct st.
  - right. exists LOther. eexists. split; [exact N1|constructor].
  - destruct q as [|[o p] q].
    + destruct l as [|e l]; [left; now repeat split|]. right. exists LOther. eexists. split; [exact N1|constructor].
    + right. destruct (starts_build (ss_context s) p) eqn:B; [exists (LBuild o); eexists; split; [apply N2|]; apply (ls_build _ _ _ _ _ _ _ _ []); [exact B|constructor]|]. exists LOther. eexists. split; [exact N1|]. now apply ls_pass.
  - right. exists LOther. eexists. split; [exact N1|constructor].
  - right. exists LOther. eexists. split; [exact N1|constructor].
Qed.
(** ** The command and its events *)
Lemma dev_watch w lv manifest output evs d : dev_command w lv manifest output evs d = watch w lv (dev_machine w manifest output) evs (dev_command w lv manifest output [] d).
Proof. unfold dev_command. cbn zeta. destruct (start _ _ _ _ _) as [[d1 [c|e|p]] said]; rewrite ?watch_stay, ?watch_over; reflexivity. Qed.
Lemma live_taken w lv manifest output d tr x : live_run w lv (dev_machine w manifest output) tr (live_init w lv manifest output d) x -> exists evs,
  match li_server x with
  | Waiting s => exists s0 g, dev_command w lv manifest output evs d = Waiting s0 /\ s = edit_disk g s0
  | Over _ _ _ => dev_command w lv manifest output evs d = li_server x
  end.
Proof.
  intros R. destruct (live_after _ _ _ _ _ _ _ R) as [evs A]. cbn [live_init li_server] in A. exists evs. rewrite dev_watch. exact A.
Qed.
Lemma live_given w lv manifest output d s evs : dev_command w lv manifest output [] d = Waiting s ->
  Forall (fun ev => exists p, ev_path ev = Some (cx_dir (ss_context s) ++ p)) evs ->
  exists tr x, live_run w lv (dev_machine w manifest output) tr (live_init w lv manifest output d) x /\ li_server x = dev_command w lv manifest output evs d /\ (ended (li_server x) = None -> at_rest x).
Proof.
  intros E F. rewrite dev_watch, E. destruct (run_all w lv (dev_machine w manifest output) evs s) as (tr & x & R & X & RE).
  - eapply Forall_impl; [|exact F]. cbn. intros ev [p P]. exists (cx_dir (ss_context s) ++ p). split; [exact P|]. unfold watched. now rewrite (proj2 (strip_app _ _ p) eq_refl).
  - exists ((LOther, live_init w lv manifest output d) :: tr), x. split; [|split; [exact X|]].
    + unfold live_init. rewrite E. eapply lr_cons; [apply ls_boot|exact R].
    + intros N. destruct (li_server x) as [s'|] eqn:Y; [|discriminate]. now apply (RE s').
Qed.
Lemma live_builds w lv manifest output d tr x s : live_run w lv (dev_machine w manifest output) tr (live_init w lv manifest output d) x -> li_server x = Waiting s -> ss_builds s = S (SpecDev.builds (steps tr)).
Proof.
  intros R X. destruct (run_waiting _ _ _ _ _ _ _ R X) as (s0 & E & _). rewrite (builds_run _ _ _ _ _ _ _ _ R E X). cbn [live_init li_server] in E.
  assert (B : ss_builds s0 = 1); [|rewrite B; lia]. unfold dev_command in E. cbn zeta in E. destruct (start _ _ _ _ _) as [[d1 [c|e|p]] said]; try discriminate. rewrite watch_stay in E.
  unfold dev_build in E. destruct (cli_build _ _ _ _) as [[c' d'] []]; try discriminate; now injection E as <-.
Qed.
(** ** Builds without end *)
Lemma round_and_round w lv m c d p : (forall k, w_build_faults w k = no_faults) -> cli_build m no_faults c d = (c, d, COk) -> own_event m c d p = true -> starts_build c p = true ->
  forall n s o l, ss_context s = c -> ss_disk s = d -> exists tr y, live_run w lv m tr (Live (Waiting s) [] ((o, p) :: l) Ready) y /\ untouched_run tr /\ SpecDev.builds (steps tr) = n.
Proof.
  intros NF B OW SB. induction n as [|n IH]; intros s o l C D; [exists []; eexists; split; [constructor|]; split; [intros q x []|reflexivity]|].
  pose proof (dev_build_eq w lv m true (Session (ss_context s) (ss_disk s) (ss_builds s) (detected lv (ss_shown s)) (ss_reloads s))) as DB. cbn zeta in DB. cbn [ss_context ss_disk ss_builds ss_shown ss_reloads] in DB.
  rewrite NF, C, D, B in DB. assert (RB := ls_build w lv m s [] o p l [p]). rewrite receive_starts in RB by (now rewrite C). rewrite C, D, DB in RB. specialize (RB SB (Forall_cons _ OW (Forall_nil _))). cbn [map app] in RB.
  match type of RB with live_step _ _ _ _ _ (Live (Waiting ?s') _ _ _) => destruct (IH s' true [] eq_refl eq_refl) as (tr & y & R & U & N) end.
  eexists. exists y. split; [eapply lr_cons; [exact RB|]; eapply lr_cons; [apply ls_done|]; eapply lr_cons; [apply ls_empty|]; eapply lr_cons; [apply ls_deliver|]; exact R|].
  split; [|unfold steps in *; cbn [map fst SpecDev.builds]; now rewrite N]. intros q x [I|[I|[I|[I|I]]]]; try discriminate. now apply (U q x).
Qed.
