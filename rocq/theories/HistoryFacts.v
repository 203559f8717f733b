(** HistoryFacts.v -- what was run before does not matter (C102). *)

From Coq Require Import String List NArith ZArith Bool Lia.
From Verif Require Import Text Utf8 Json Base Syntax Parse Tree Interp Build Disk Cli Load Dev New Report Main Server Live.
From Verif Require Import SpecScope SpecTree SpecDisk SpecProject SpecDev SpecMain SpecServer SpecLive SpecRecover SpecHistory.
From Verif Require Import TextFacts TreeFacts PathFacts DiskFacts SaveFacts ProjectFacts CliFacts AgainFacts DevFacts MainFacts ModeFacts RecoverFacts ServerFacts LiveFacts.
Import ListNotations.

(** What every command keeps. *)
Definition kept : context -> ent -> ent -> Prop := same_copy.
Lemma not_generated dir (n : text) r : ~ In n [lit "dist"; lit "_build"; lit "metadata.json"] -> ~ generated dir (dir ++ n :: r).
Proof.
  intros N G. apply N. destruct G as [[s E]|[[s E]|[s E]]]; rewrite <- app_assoc in E; apply app_inv_head in E; injection E as <- _; cbn; tauto.
Qed.
Lemma kept_refl c d : nothing_stale c d -> kept c d d.
Proof. intros N. split; [reflexivity|]. split; [intros q _; reflexivity|exact N]. Qed.
Lemma kept_same c d x : kept c d x -> nothing_stale c d -> same_but_output c d x \/ output_dir c <> cx_dir c ++ [lit "dist"].
Proof.
  intros (K1 & K2 & K3 & K4) (N1 & N2). destruct (path_eq (output_dir c) (cx_dir c ++ [lit "dist"])) as [E|]; [left|now right]. split; [exact K1|].
  intros q Q1 Q2. rewrite E in Q1. destruct (above_dec (cx_dir c ++ [lit "_build"]) q) as [[r ->]|NB]; [now rewrite !SaveFacts.below_none|].
  destruct (above_dec (cx_dir c ++ [lit "metadata.json"]) q) as [AM|NM].
  - destruct (cf_meta (st_config (cx_stuart c))); [now destruct Q2|]. destruct AM as [r ->]. now rewrite !SaveFacts.below_none by auto.
  - apply K2. now intros [G|[G|G]].
Qed.
(** A build. *)
Lemma build_kept m f c c' d x : fl_temp f = None -> cx_dir c' = cx_dir c -> output_dir c' = cx_dir c ++ [lit "dist"] -> cx_pre c' = [] -> cx_post c' = [] ->
  st_config (cx_stuart c') = st_config (cx_stuart c) -> st_plugins (cx_stuart c') = st_plugins (cx_stuart c) ->
  inward_project c d -> what (cx_dir c ++ [lit "temp"]) d = KNone -> kept c d x -> kept c d (snd (fst (cli_build m f c' x))).
Proof.
  intros FT DIR OD PR PO CF PL IP T0 KX. pose proof KX as (K1 & K2 & K3 & K4).
  assert (TX : what (cx_dir c ++ [lit "temp"]) x = KNone) by (rewrite K2; [exact T0|]; apply not_generated; cbn; intuition discriminate).
  assert (IX : inward_project c' x).
  { destruct IP as (I1 & I2 & _ & I4). unfold inward_project. rewrite DIR, PL. split; [|split; [|split; [|exact I4]]]; intros e L.
    - rewrite (K1 (lit "content")) in L by (now left). now apply I1.
    - rewrite (K1 (lit "static")) in L by (right; now left). now apply I2.
    - apply kind_none in TX. congruence. }
  unfold cli_build. rewrite PR. cbn [run_scripts]. destruct (build_and_merge m c' x) as [st r] eqn:BM. destruct r as [[]| | |]; cbn [fst snd]; try exact KX.
  rewrite FT, DIR. unfold output_dir in OD. rewrite DIR in OD. rewrite OD.
  assert (RT : remove_temp None (cx_dir c ++ [lit "temp"]) x = x).
  { apply kind_none in TX. unfold remove_temp, rmtree. destruct (cx_dir c ++ [lit "temp"]); [reflexivity|]. now rewrite TX. }
  rewrite RT. destruct (merged_tame _ _ _ _ BM IX) as (out & O & T).
  set (dist := cx_dir c ++ [lit "dist"]) in *. set (meta := cx_dir c ++ [lit "metadata.json"]) in *.
  assert (Cfg : st_config st = st_config (cx_stuart c)) by (rewrite <- CF; destruct (merged_output _ _ _ _ BM) as (? & _ & _ & Q1 & _); exact Q1).
  assert (A3 := fun q => save_apart_f (fl_save f) st dist x out q O T). assert (W3 := save_outside (fl_save f) st dist x out O T).
  destruct (save (fl_save f) st dist x) as [d3 r3]. cbn [fst] in A3, W3.
  assert (K : kept c d d3).
  { split; [|split; [|split]].
    - intros n I. rewrite A3; [now apply K1|]. apply siblings_apart. destruct I as [<-|[<-|[]]]; discriminate.
    - intros q G. rewrite W3; [now apply K2|]. intros A. apply G. now left.
    - rewrite W3; [exact K3|]. apply siblings_apart. discriminate.
    - intros M. rewrite W3; [now apply K4|]. apply siblings_apart. discriminate. }
  clear A3 W3. destruct r3 as [u| | |]; cbn [fst snd]; try exact K. rewrite Cfg.
  set (x4 := if cf_meta (st_config (cx_stuart c)) then save_metadata (m_ser m) (fl_meta f) st meta d3 else (d3, Ok tt)).
  assert (K' : kept c d (fst x4)).
  { unfold x4. destruct (cf_meta (st_config (cx_stuart c))) eqn:CM; [|exact K]. destruct K as (L1 & L2 & L3 & _). split; [|split; [|split]].
    - intros n I. rewrite (proj1 (meta_keeps _ _ _ _ _ _)); [now apply L1|]. apply siblings_apart. destruct I as [<-|[<-|[]]]; discriminate.
    - intros q G. rewrite (proj2 (meta_keeps _ _ _ _ _ _)); [now apply L2|]. intros A. apply G. right. now right.
    - rewrite (proj2 (meta_keeps _ _ _ _ _ _)); [exact L3|]. apply siblings_apart. discriminate.
    - intros M. congruence. }
  clearbody x4. destruct x4 as [d4 r4]. cbn [fst] in K'. destruct r4 as [u4| | |]; cbn [fst snd]; try exact K'. rewrite PO. cbn [run_scripts fst snd]. exact K'.
Qed.
(** Cleaning. *)
Lemma clean_one_keeps rm fl p d : (forall d', rm p d = IoOk d' -> d' = update p None d) -> forall q, (apart p q -> lookup q (fst (clean_one rm fl p d)) = lookup q d) /\ (~ above p q -> what q (fst (clean_one rm fl p d)) = what q d).
Proof.
  intros R q. unfold clean_one. destruct (lookup p d); [|now split]. destruct fl as [junk|]; cbn [fst]; [split; intros A; [now apply update_apart|now apply update_outside]|].
  destruct (rm p d) as [d'| |] eqn:E; cbn [fst]; try now split. rewrite (R d' eq_refl). split; intros A; [now apply update_apart|now apply update_outside].
Qed.
Lemma clean_one_none rm fl p d : lookup p d = None -> clean_one rm fl p d = (d, true).
Proof. intros L. unfold clean_one. now rewrite L. Qed.
Lemma rmtree_update p d d' : rmtree p d = IoOk d' -> d' = update p None d.
Proof. unfold rmtree. destruct p; [discriminate|]. destruct (lookup _ d) as [[| |]|]; try discriminate. intros E; injection E as <-. reflexivity. Qed.
Lemma rmfile_update p d d' : rmfile p d = IoOk d' -> d' = update p None d.
Proof. unfold rmfile. destruct p; [discriminate|]. destruct (lookup _ d) as [[| |]|]; try discriminate. intros E; injection E as <-. reflexivity. Qed.
Lemma clean_kept fl c d x : kept c d x -> kept c d (fst (clean fl (cx_dir c) x)).
Proof.
  intros KX. pose proof KX as (K1 & K2 & K3 & K4). unfold clean. destruct (lookup (cx_dir c ++ [lit "stuart.toml"]) x); [|exact KX].
  set (dist := cx_dir c ++ [lit "dist"]) in *. set (meta := cx_dir c ++ [lit "metadata.json"]) in *.
  pose proof (clean_one_keeps rmtree (fl 0) dist x (rmtree_update dist x)) as C1. destruct (clean_one rmtree (fl 0) dist x) as [d1 b]. cbn [fst] in C1.
  assert (K : kept c d d1).
  { split; [|split; [|split]].
    - intros n I. rewrite (proj1 (C1 _)); [now apply K1|]. apply siblings_apart. destruct I as [<-|[<-|[]]]; discriminate.
    - intros q G. rewrite (proj2 (C1 _)); [now apply K2|]. intros A. apply G. now left.
    - rewrite (proj2 (C1 _)); [exact K3|]. apply siblings_apart. discriminate.
    - intros M. rewrite (proj2 (C1 _)); [now apply K4|]. apply siblings_apart. discriminate. }
  destruct b; [|exact K]. destruct K as (L1 & L2 & L3 & L4). rewrite clean_one_none by now apply kind_none.
  destruct (cf_meta (st_config (cx_stuart c))) eqn:CM.
  2:{ rewrite clean_one_none by (now apply kind_none, L4). repeat split; auto. }
  pose proof (clean_one_keeps rmfile (fl 2) meta d1 (rmfile_update meta d1)) as C2. destruct (clean_one rmfile (fl 2) meta d1) as [d2 b]. cbn [fst] in *.
  split; [|split; [|split]].
  - intros n I. rewrite (proj1 (C2 _)); [now apply L1|]. apply siblings_apart. destruct I as [<-|[<-|[]]]; discriminate.
  - intros q G. rewrite (proj2 (C2 _)); [now apply L2|]. intros A. apply G. right. now right.
  - rewrite (proj2 (C2 _)); [exact L3|]. apply siblings_apart. discriminate.
  - congruence.
Qed.

Section History.
Variables (w : world) (r : raw_config) (deps : list (text * text)) (ps : list plugin) (d : ent).
Let dir := w_cwd w.
Let c := init r ps dir (lit "dist") (lit "production") d.
Hypotheses (MS : manifest_says w (dir ++ [lit "stuart.toml"]) d r deps) (LA : loads_alike w deps d ps) (NS : what (dir ++ [lit "scripts"]) d = KNone)
  (IP : inward_project c d) (T0 : what (dir ++ [lit "temp"]) d = KNone).


Lemma kept_says w' x : same_seat w w' -> kept c d x -> manifest_says w' (dir ++ [lit "stuart.toml"]) x r deps /\ what (dir ++ [lit "scripts"]) x = KNone /\
  loads_all (lo_js (w_loader w')) (load_from_source (w_loader w') (w_load_faults w') dir) deps x x ps.
Proof.
  intros (S1 & S2 & S3 & _) (_ & K2 & _). split; [|split].
  - destruct MS as (b & t & W & U & T). exists b, t. rewrite S1, K2; [now repeat split|]. apply not_generated. cbn. intuition discriminate.
  - rewrite K2; [exact NS|]. apply not_generated. cbn. intuition discriminate.
  - rewrite S2. apply LA. exact K2.
Qed.
Lemma kept_start w' mode x : same_seat w w' -> kept c d x -> exists said, start w' (lit "stuart.toml") (lit "dist") mode x = (x, SOk (init r ps dir (lit "dist") mode x), said).
Proof.
  intros SS K. destruct (kept_says w' x SS K) as (M & _ & L). apply (start_ok w' (lit "stuart.toml") (lit "dist") mode x dir (lit "stuart.toml") r deps x ps); auto.
  apply join_meant. destruct SS as (_ & _ & -> & _). reflexivity.
Qed.
Lemma build_step m f mode c' x0 x : fl_temp f = None -> kept c d x0 -> twin (init r ps dir (lit "dist") mode x0) c' -> kept c d x -> kept c d (snd (fst (cli_build m f c' x))).
Proof.
  intros FT K0 ((C1 & C2 & _ & C4) & C5 & C6 & C7) K. assert (N0 : what (dir ++ [lit "scripts"]) x0 = KNone) by (destruct K0 as (_ & K2 & _); rewrite K2; [exact NS|]; apply not_generated; cbn; intuition discriminate).
  destruct (no_script_lists dir x0 N0) as [P1 P2]. unfold init in *. cbn [cx_stuart cx_pre cx_post cx_dir cx_output] in *. apply build_kept; auto; try congruence.
  unfold output_dir. rewrite C4, C7. reflexivity.
Qed.
Lemma bench_kept m fs mode x0 : (forall i, fl_temp (fs i) = None) -> kept c d x0 -> forall n k c' x, twin (init r ps dir (lit "dist") mode x0) c' -> kept c d x -> kept c d (fst (bench_loop m fs k n c' x)).
Proof.
  intros FT K0 n. induction n as [|n IH]; intros k c' x T K; [exact K|]. cbn [bench_loop]. pose proof (build_step m (fs k) mode c' x0 x (FT k) K0 T K) as B.
  destruct (cli_build m (fs k) c' x) as [[c1 d1] e] eqn:E. cbn [fst snd] in B. destruct e; try exact B. apply IH; [|exact B].
  destruct (cli_build_twin _ _ _ _ _ _ _ _ (twin_refl c') E) as (_ & _ & T1 & _). exact (twin_trans _ _ _ T T1).
Qed.
Lemma command_kept w' lv k x : same_seat w w' -> chore k -> kept c d x -> kept c d (fst (fst (main w' lv k x))).
Proof.
  intros SS CH K. assert (G : kept c d (fst (fst (perform w' k x)))).
  { destruct CH as [|n|]; cbn [perform].
    - unfold build_command. cbn zeta. destruct (kept_start w' (lit "production") x SS K) as [said ->].
      match goal with |- context [cli_build ?m ?f ?c1 x] => pose proof (build_step m f (lit "production") c1 x x (proj2 (proj2 (proj2 SS)) 0) K (twin_refl _) K) as B; destruct (cli_build m f c1 x) as [[c2 d2] e] end. exact B.
    - unfold bench_command. cbn zeta. destruct (kept_start w' (lit "benchmark") x SS K) as [said ->]. destruct (parse_usize n) as [i|]; [|exact K].
      match goal with |- context [bench_loop ?m ?f ?k0 ?n0 ?c1 x] => pose proof (bench_kept m f (lit "benchmark") x (proj2 (proj2 (proj2 SS))) K n0 k0 c1 x (twin_refl _) K) as B; destruct (bench_loop m f k0 n0 c1 x) as [d2 e] end. exact B.
    - unfold clean_command. cbn zeta. destruct SS as (_ & _ & -> & _). pose proof (clean_kept (w_clean_faults w') c d x K) as B. change (cx_dir c) with (w_cwd w) in B. destruct (clean (w_clean_faults w') (w_cwd w) x) as [d' []]; exact B. }
  unfold main. destruct (perform w' k x) as [[d' o] said]. cbn [fst] in G. destruct o; exact G.
Qed.
(** What is kept by [stuart dev]. *)
Definition kept_server (c0 : context) (s : server) : Prop :=
  match s with Waiting s => twin c0 (ss_context s) /\ kept c d (ss_disk s) | Over d' _ _ => kept c d d' end.
Lemma dev_build_kept w' lv m tell x0 s : same_seat w w' -> kept c d x0 -> let c0 := init r ps dir (lit "dist") (lit "development") x0 in
  twin c0 (ss_context s) -> kept c d (ss_disk s) -> kept_server c0 (dev_build w' lv m tell s).
Proof.
  intros SS K0 c0 T K. pose proof (build_step m (w_build_faults w' (ss_builds s)) (lit "development") (ss_context s) x0 (ss_disk s) (proj2 (proj2 (proj2 SS)) _) K0 T K) as B.
  unfold dev_build. cbn zeta. destruct (cli_build m (w_build_faults w' (ss_builds s)) (ss_context s) (ss_disk s)) as [[c1 d1] e] eqn:E. cbn [fst snd] in B.
  destruct (cli_build_twin _ _ _ _ _ _ _ _ (twin_refl _) E) as (_ & _ & T1 & _). pose proof (twin_trans _ _ _ T T1) as T2. destruct e; try exact B; split; assumption.
Qed.
Lemma receive_kept w' lv m p x0 s : same_seat w w' -> kept c d x0 -> let c0 := init r ps dir (lit "dist") (lit "development") x0 in
  twin c0 (ss_context s) -> kept c d (ss_disk s) -> kept_server c0 (receive w' lv m (Event (fun d => d) p) s).
Proof.
  intros SS K0 c0 T K. unfold receive. cbn [ev_edit ev_path]. destruct (match p with Some p => _ | None => None end) as [q|]; [|exact K].
  destruct (ignored_event q); [now split|]. destruct (last_is _ q); [now split|]. now apply dev_build_kept.
Qed.
Lemma dev_kept w' lv tr x x1 : same_seat w w' -> kept c d x1 ->
  live_run w' lv (dev_machine w' (lit "stuart.toml") (lit "dist")) tr (live_init w' lv (lit "stuart.toml") (lit "dist") x1) x -> untouched_run tr -> kept c d (disk_of (li_server x)).
Proof.
  intros SS K R U. set (c0 := init r ps dir (lit "dist") (lit "development") x1).
  assert (I : kept_server c0 (li_server (live_init w' lv (lit "stuart.toml") (lit "dist") x1))).
  { unfold live_init, dev_command. cbn [li_server]. cbn zeta. destruct (kept_start w' (lit "development") x1 SS K) as [said ->]. rewrite watch_stay. apply dev_build_kept; auto. apply twin_refl. }
  revert R I. generalize (dev_machine w' (lit "stuart.toml") (lit "dist")). intros m R. induction R as [y|a y z tr x ST R IH]; intros I.
  - destruct (li_server y); [apply I|exact I].
  - apply IH; [intros p y' J; exact (U p y' (or_intror J))|]. destruct ST as [s l q st g p|s e l q st|s l q|s l o p q B|s l o p q own B OW|s l q|s l q]; cbn [li_server] in *; try exact I.
    + exfalso. exact (U p _ (or_introl eq_refl)).
    + destruct I. now apply receive_kept.
    + destruct I. now apply receive_kept.
Qed.
Lemma history_kept x y : past w x y -> kept c d x -> kept c d y.
Proof.
  intros H. induction H as [x|x w' lv k x1 e items x2 SS CH E H IH|x w' lv tr z x2 SS R U H IH]; intros K; [exact K| |].
  - apply IH. pose proof (command_kept w' lv k x SS CH K) as G. rewrite E in G. exact G.
  - apply IH. now apply (dev_kept w' lv tr z x).
Qed.
End History.
Lemma copy_same w lv lv' r deps ps d d1 items d' : untroubled w -> let dir := w_cwd w in let c := init r ps dir (lit "dist") (lit "production") d in
  manifest_says w (dir ++ [lit "stuart.toml"]) d r deps -> loads_alike w deps d ps -> what (dir ++ [lit "scripts"]) d = KNone ->
  inward_project c d -> clear_way c d -> nothing_stale c d ->
  main w lv (CmdBuild (lit "stuart.toml") (lit "dist")) d = (d1, Exit 0, items) -> kept c d d' -> clear_way c d' ->
  exists d2 items', main w lv' (CmdBuild (lit "stuart.toml") (lit "dist")) d' = (d2, Exit 0, items') /\ forall q, what q d2 = what q d1.
Proof.
  intros U dir c MS LA NS IP CW ST B H CW'. assert (T0 : what (dir ++ [lit "temp"]) d = KNone) by apply CW.
  pose proof H as K.
  assert (SS : same_seat w w) by (repeat split; intros i; now rewrite (proj1 U i)).
  assert (ME : meant (w_cwd w) (lit "stuart.toml") (dir ++ [lit "stuart.toml"])) by (now apply join_meant).
  destruct (kept_says w r deps ps d MS LA NS w d SS (kept_refl _ _ ST)) as (_ & _ & L0). destruct (kept_says w r deps ps d MS LA NS w d' SS K) as (MS' & NS' & L1). fold dir in L0, L1.
  destruct (main_build_inv _ _ _ _ _ _ _ _ _ _ _ _ _ ME MS L0 B) as [c1 CB]. rewrite (proj1 U) in CB. fold c in CB.
  destruct (kept_same c d d' K ST) as [SB|NO]; [|now destruct NO].
  set (m := machine_of w (dir ++ [lit "stuart.toml"]) (lit "dist") (lit "production")) in *.
  assert (IC : init r ps dir (lit "dist") (lit "production") d' = c).
  { unfold c, init. destruct (no_script_lists dir d NS) as [-> ->], (no_script_lists dir d' NS') as [-> ->]. reflexivity. }
  destruct (build_from m c d c1 d1 c d' CB (conj eq_refl (conj eq_refl (conj eq_refl eq_refl))) eq_refl eq_refl eq_refl) as (c2 & d2 & X & _ & Y); auto.
  { intros n x I. unfold c, init in I. cbn [cx_pre cx_post] in I. destruct (no_script_lists dir d NS) as [E1 E2]. rewrite E1, E2 in I. destruct I. }
  { repeat (apply Forall_cons; [apply siblings_apart; discriminate|]). constructor. }
  destruct (MainFacts.main_build w lv' (lit "stuart.toml") (lit "dist") d' dir (lit "stuart.toml") r deps d' ps ME MS' L1 c2 d2 COk) as [it E].
  { rewrite (proj1 U), IC. exact X. }
  eauto.
Qed.
Lemma history_same w lv lv' r deps ps d d1 items d' : untroubled w -> let dir := w_cwd w in let c := init r ps dir (lit "dist") (lit "production") d in
  manifest_says w (dir ++ [lit "stuart.toml"]) d r deps -> loads_alike w deps d ps -> what (dir ++ [lit "scripts"]) d = KNone ->
  inward_project c d -> clear_way c d -> nothing_stale c d ->
  main w lv (CmdBuild (lit "stuart.toml") (lit "dist")) d = (d1, Exit 0, items) -> past w d d' -> clear_way c d' ->
  exists d2 items', main w lv' (CmdBuild (lit "stuart.toml") (lit "dist")) d' = (d2, Exit 0, items') /\ forall q, what q d2 = what q d1.
Proof.
  intros U dir c MS LA NS IP CW ST B H CW'. apply (copy_same w lv lv' r deps ps d d1 items d'); auto.
  apply (history_kept w r deps ps d MS LA NS IP (proj1 (proj2 CW)) d d' H (kept_refl _ _ ST)).
Qed.
Lemma history_keeps w r deps ps d d' : let dir := w_cwd w in let c := init r ps dir (lit "dist") (lit "production") d in
  manifest_says w (dir ++ [lit "stuart.toml"]) d r deps -> loads_alike w deps d ps -> what (dir ++ [lit "scripts"]) d = KNone -> what (dir ++ [lit "temp"]) d = KNone ->
  inward_project c d -> nothing_stale c d -> past w d d' -> same_work dir d d'.
Proof.
  intros dir c MS LA NS T0 IP ST H. assert (K := history_kept w r deps ps d MS LA NS IP T0 d d' H (kept_refl _ _ ST)). apply K.
Qed.
(** An error of a page. *)
Lemma error_of_build m f c d c' d' e : cx_pre c = [] -> cx_post c = [] -> cli_build m f c d = (c', d', CErr (CE e)) -> e <> E_Fs FE_Write -> d' = d /\ snd (build_and_merge m c d) = Err e.
Proof.
  intros P1 P2 B NE. assert (R : ran (m_script m) (cx_pre c) d d) by (rewrite P1; constructor). split; [exact (error_unchanged _ _ _ _ _ _ _ _ B NE R)|].
  assert (N : snd (build_and_merge m c d) <> Ok tt).
  { intros E. unfold cli_build in B. rewrite P1, P2 in B. cbn [run_scripts] in B. destruct (build_and_merge m c d) as [st1 r] eqn:BM. cbn [snd] in E. subst r.
    destruct (merged_output _ _ _ _ BM) as (out & O & D & _). set (d2 := remove_temp _ _ _) in B. clearbody d2.
    unfold save in B. rewrite O in B. destruct out as [|name ch src]; [discriminate|]. cbn [save_ops] in B.
    destruct (run_ops _ _ d2) as [d3 ok]. destruct ok; [|injection B as _ _ B; congruence].
    destruct (cf_meta (st_config st1)) eqn:CM; [|discriminate].
    unfold save_metadata in B. destruct (metadata_value st1) as [v|x|p|] eqn:MV; [|now apply (metadata_errors st1 CM) in MV; [|rewrite O]|discriminate|discriminate].
    destruct (run_ops _ _ d3) as [d4 ok]. destruct ok; [discriminate|injection B as _ _ B; congruence]. }
  destruct (failed_build m f c d d R N) as [_ X]. rewrite B in X. cbn [snd] in X. destruct (snd (build_and_merge m c d)); try discriminate. cbn [of_res] in X. now injection X as ->.
Qed.
Lemma history_fails w lv lv' r deps ps d d1 items e d' : untroubled w -> let dir := w_cwd w in let c := init r ps dir (lit "dist") (lit "production") d in
  manifest_says w (dir ++ [lit "stuart.toml"]) d r deps -> loads_alike w deps d ps -> what (dir ++ [lit "scripts"]) d = KNone -> what (dir ++ [lit "temp"]) d = KNone ->
  inward_project c d -> nothing_stale c d ->
  main w lv (CmdBuild (lit "stuart.toml") (lit "dist")) d = (d1, Exit 1, items ++ [Report (ME e)]) -> e <> E_Fs FE_Write -> past w d d' ->
  exists items', main w lv' (CmdBuild (lit "stuart.toml") (lit "dist")) d' = (d', Exit 1, items' ++ [Report (ME e)]).
Proof.
  intros U dir c MS LA NS T0 IP ST B NE H.
  assert (K := history_kept w r deps ps d MS LA NS IP T0 d d' H (kept_refl _ _ ST)). fold dir c in K.
  assert (SS : same_seat w w) by (repeat split; intros i; now rewrite (proj1 U i)).
  assert (ME_ : meant (w_cwd w) (lit "stuart.toml") (dir ++ [lit "stuart.toml"])) by (now apply join_meant).
  destruct (kept_says w r deps ps d MS LA NS w d SS (kept_refl _ _ ST)) as (_ & _ & L0). destruct (kept_says w r deps ps d MS LA NS w d' SS K) as (MS' & NS' & L1). fold dir in L0, L1.
  set (m := machine_of w (dir ++ [lit "stuart.toml"]) (lit "dist") (lit "production")).
  assert (IC : init r ps dir (lit "dist") (lit "production") d' = c).
  { unfold c, init. destruct (no_script_lists dir d NS) as [-> ->], (no_script_lists dir d' NS') as [-> ->]. reflexivity. }
  destruct (cli_build m (w_build_faults w 0) c d) as [[c1 dx] x] eqn:CB.
  assert (MB := MainFacts.main_build w lv (lit "stuart.toml") (lit "dist") d dir (lit "stuart.toml") r deps d ps ME_ MS L0 c1 dx x CB).
  assert (X : x = CErr (CE e)).
  { destruct x as [|ce|p|]; destruct MB as [it E]; rewrite B in E; try (injection E as _ E; discriminate).
    injection E as _ E. apply app_inj_tail in E. destruct E as [_ E]. injection E as E. destruct ce; try discriminate. cbn in E. now injection E as ->. }
  subst x. destruct (no_script_lists dir d NS) as [E1 E2]. destruct (error_of_build m _ c d c1 dx e E1 E2 CB NE) as [_ BE].
  assert (SO : same_sources (cx_dir c) d d').
  { intros n [<-|[<-|[<-|[]]]]; [apply K; now left|apply K; right; now left|]. assert (T1 : what (dir ++ [lit "temp"]) d' = KNone) by (destruct K as (_ & K2 & _); rewrite K2; [exact T0|]; apply not_generated; cbn; intuition discriminate).
    apply kind_none in T0, T1. change (cx_dir c) with dir. congruence. }
  destruct (bam_same m c c d d' (conj eq_refl (conj eq_refl (conj eq_refl eq_refl))) SO) as [BE' _]. rewrite BE in BE'.
  assert (R : ran (m_script m) (cx_pre c) d' d') by (change (cx_pre c) with (pre_scripts (lookup (dir ++ [lit "scripts"]) d)); rewrite E1; constructor).
  destruct (failed_build m (w_build_faults w 0) c d' d' R) as [F1 F2]; [rewrite BE'; discriminate|]. rewrite BE' in F2.
  destruct (cli_build m (w_build_faults w 0) c d') as [[c2 dy] y] eqn:CB'. cbn [fst snd] in F1, F2. subst dy y.
  assert (MB' := MainFacts.main_build w lv' (lit "stuart.toml") (lit "dist") d' dir (lit "stuart.toml") r deps d' ps ME_ MS' L1 c2 d' (CErr (CE e))). rewrite IC in MB'. exact (MB' CB').
Qed.
