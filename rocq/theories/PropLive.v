(** PropLive.v -- properties C50 and C51 on a real disk: [stuart dev] with the user, the channel of events and the builds in any order. *)

From Coq Require Import String List NArith ZArith Bool Lia.
From Verif Require Import Text Utf8 Json Base Syntax Parse Tree Interp Build Disk Cli Load Dev New Report Main Server Live.
From Verif Require Import SpecScope SpecTree SpecDisk SpecProject SpecChars SpecDev SpecMain SpecServer SpecMode SpecLive.
From Verif Require Import MoveFacts DevFacts MainFacts LiveFacts PropServer.
Import ListNotations.

(** ** C50 *)
(** Whatever the user does and when, the process is as if it had taken certain events one after the other, each with what had been
    changed since the last; so what is said of such sequences ([PropServer.v], [PropMode.v]) holds in all executions. *)
Theorem C50_live_taken : forall w lv manifest output d tr x, live_run w lv (dev_machine w manifest output) tr (live_init w lv manifest output d) x -> exists evs,
  match li_server x with
  | Waiting s => exists s0 g, dev_command w lv manifest output evs d = Waiting s0 /\ s = edit_disk g s0
  | Over _ _ _ => dev_command w lv manifest output evs d = li_server x
  end.
Proof. exact live_taken. Qed.
Print Assumptions C50_live_taken.
(** Every such sequence occurs. *)
Theorem C50_live_given : forall w lv manifest output d s evs, dev_command w lv manifest output [] d = Waiting s ->
  Forall (fun ev => exists p, ev_path ev = Some (cx_dir (ss_context s) ++ p)) evs ->
  exists tr x, live_run w lv (dev_machine w manifest output) tr (live_init w lv manifest output d) x /\ li_server x = dev_command w lv manifest output evs d /\
    (ended (li_server x) = None -> at_rest x).
Proof. exact live_given. Qed.
Print Assumptions C50_live_given.
(** Missing: events thrown away at the end of a build, which are lost ([C50_live_refuted]), and changes of the manifest, the plugins or the scripts.  When an
    event about a source is on its way, between builds or during one, is not thrown away, and nothing is changed any more, the disk is in the end as [stuart build]
    would leave it, and browsers have been told. *)
Theorem C50_live_partial : forall w lv manifest output d dir name r deps d0 ps, meant (w_cwd w) manifest (dir ++ [name]) -> manifest_says w (dir ++ [name]) d r deps ->
  loads_all (lo_js (w_loader w)) (load_from_source (w_loader w) (w_load_faults w) dir) deps d d0 ps ->
  forall tr0 x1 s1, (forall k, w_build_faults w k = no_faults) ->
  live_run w lv (dev_machine w manifest output) tr0 (live_init w lv manifest output d) x1 -> li_server x1 = Waiting s1 -> awaits dir x1 ->
  manifest_says w (dir ++ [name]) (ss_disk s1) r deps ->
  loads_all (lo_js (w_loader w)) (load_from_source (w_loader w) (w_load_faults w) dir) deps (ss_disk s1) (ss_disk s1) ps ->
  lookup (dir ++ [lit "scripts"]) (ss_disk s1) = lookup (dir ++ [lit "scripts"]) d0 ->
  modeless w (dir ++ [name]) output -> unaware_project w (dir ++ [name]) dir output ps (ss_disk s1) ->
  forall tr x2 d' said, not_lost dir tr -> main w lv (CmdBuild manifest output) (ss_disk s1) = (d', Exit 0, said) ->
  idle_scripts (dev_machine w manifest output) (init r ps dir output (lit "development") d0) -> ent_distinct (ss_disk s1) ->
  inward_project (init r ps dir output (lit "development") d0) (ss_disk s1) -> lookup (dir ++ [lit "temp"]) (ss_disk s1) = None ->
  Forall (fun n => apart (join_path dir output) (dir ++ [n])) [lit "content"; lit "static"; lit "temp"; lit "metadata.json"] ->
  untouched_run tr -> live_run w lv (dev_machine w manifest output) tr x1 x2 -> at_rest x2 ->
  exists s2, li_server x2 = Waiting s2 /\ (forall q, what q (ss_disk s2) = what q d') /\ ss_reloads s1 < ss_reloads s2.
Proof. exact live_good. Qed.
Print Assumptions C50_live_partial.
(** When [stuart build] would report an error and leave the disk alone, so it is in the end: the disk is as it was, the same error has been reported, and
    browsers have not been told. *)
Theorem C50_live_broken_partial : forall w lv manifest output d dir name r deps d0 ps, meant (w_cwd w) manifest (dir ++ [name]) -> manifest_says w (dir ++ [name]) d r deps ->
  loads_all (lo_js (w_loader w)) (load_from_source (w_loader w) (w_load_faults w) dir) deps d d0 ps ->
  forall tr0 x1 s1, (forall k, w_build_faults w k = no_faults) ->
  live_run w lv (dev_machine w manifest output) tr0 (live_init w lv manifest output d) x1 -> li_server x1 = Waiting s1 -> awaits dir x1 ->
  manifest_says w (dir ++ [name]) (ss_disk s1) r deps ->
  loads_all (lo_js (w_loader w)) (load_from_source (w_loader w) (w_load_faults w) dir) deps (ss_disk s1) (ss_disk s1) ps ->
  lookup (dir ++ [lit "scripts"]) (ss_disk s1) = lookup (dir ++ [lit "scripts"]) d0 ->
  modeless w (dir ++ [name]) output -> unaware_project w (dir ++ [name]) dir output ps (ss_disk s1) ->
  forall tr x2 said, not_lost dir tr -> main w lv (CmdBuild manifest output) (ss_disk s1) = (ss_disk s1, Exit 1, said) ->
  untouched_run tr -> live_run w lv (dev_machine w manifest output) tr x1 x2 -> at_rest x2 ->
  exists s2 l e, li_server x2 = Waiting s2 /\ ss_disk s2 = ss_disk s1 /\ ss_reloads s2 = ss_reloads s1 /\ ss_shown s2 = ss_shown s1 ++ l /\ In (Report e) l /\ In (Report e) said.
Proof. exact live_bad. Qed.
Print Assumptions C50_live_broken_partial.
(** A change of a source puts such an event on its way once the watcher is set up. *)
Theorem C50_live_noticed : forall w lv m dir p x y, live_step w lv m (LEdit (dir ++ p)) x y -> li_stage x <> Starting ->
  (forall s, li_server x = Waiting s -> cx_dir (ss_context s) = dir) -> ~ passed p -> awaits dir y.
Proof. exact edit_awaits. Qed.
Print Assumptions C50_live_noticed.
(** Something can happen until everything is at rest, and in an ordinary project not for ever. *)
Theorem C50_live_progress : forall w lv m x s, li_server x = Waiting s -> at_rest x \/ exists a y, no_edit a /\ live_step w lv m a x y.
Proof. exact live_progress. Qed.
Print Assumptions C50_live_progress.
Theorem C50_live_rests_partial : forall w lv m x, Acc (fun y x => goes_on w lv m x y) x.
Proof. exact live_rests. Qed.
Print Assumptions C50_live_rests_partial.

(** The page of [PropServer.v]: it is changed while a build runs, and the event arrives before the end of the build. *)
Example C50_machine : machine := dev_machine C76_world (lit "stuart.toml") (lit "dist").
Example C50_start : live := live_init C76_world Normal (lit "stuart.toml") (lit "dist") (C76_disk "x").
Example C50_session (x : server) : session := match x with Waiting s => s | Over _ _ _ => Session (init (RawConfig [] None None) [] [] [] [] (EDir [])) (EDir []) 0 [] 0 end.
Example C50_first : session := C50_session (C92_run []).
Example C50_second : session := C50_session (receive C76_world Normal C50_machine (C92_edit "y") C50_first).
Theorem C50_live_refuted : exists w lv manifest output d tr x s d' said q, dev_command w lv manifest output [] d <> li_server x /\
  live_run w lv (dev_machine w manifest output) tr (live_init w lv manifest output d) x /\ at_rest x /\ li_server x = Waiting s /\
  (forall p y, In (LEdit p, y) tr -> ~ passed p) /\
  main w lv (CmdBuild manifest output) (ss_disk s) = (d', Exit 0, said) /\ what q (ss_disk s) <> what q d'.
Proof.
  set (z := edit_disk (C92_write C92_root "z") C50_second).
  assert (MN : exists d' said, main C76_world Normal (CmdBuild (lit "stuart.toml") (lit "dist")) (ss_disk z) = (d', Exit 0, said) /\ what [lit "dist"; lit "a"; lit "index.html"] d' = KFile (enc (lit "z"))).
  { destruct (main C76_world Normal (CmdBuild (lit "stuart.toml") (lit "dist")) (ss_disk z)) as [[d' e] said] eqn:E. vm_compute in E. injection E as <- <- <-. do 2 eexists. split; reflexivity. }
  destruct MN as (d' & said & MN & W).
  exists C76_world, Normal, (lit "stuart.toml"), (lit "dist"), (C76_disk "x").
  eexists. exists (Live (Waiting z) [] [] Ready), z, d', said, [lit "dist"; lit "a"; lit "index.html"]. split.
  { cbn [li_server]. change (dev_command C76_world Normal (lit "stuart.toml") (lit "dist") [] (C76_disk "x")) with (C92_run []). intros E. apply (f_equal (fun x => reloads_of x)) in E. vm_compute in E. discriminate. }
  split.
  { unfold live_init. change (dev_command C76_world Normal (lit "stuart.toml") (lit "dist") [] (C76_disk "x")) with (C92_run []).
    assert (E1 : C92_run [] = Waiting C50_first) by (vm_compute; reflexivity). rewrite E1. eapply lr_cons; [apply ls_boot|].
    eapply lr_cons; [apply (ls_edit _ _ _ C50_first [] [] Ready (C92_write C92_root "y") C92_root)|]. change ([] ++ noticed (ss_context C50_first) Ready C92_root) with [(false, C92_root)].
    eapply lr_cons; [apply ls_deliver|]. cbn [app].
    eapply lr_cons; [apply (ls_build _ _ _ _ [] false C92_root [] []); [reflexivity|constructor]|]. cbn [map app].
    assert (E2 : receive C76_world Normal C50_machine (Event (fun d => d) (Some C92_root)) (edit_disk (C92_write C92_root "y") C50_first) = Waiting C50_second) by (vm_compute; reflexivity).
    fold C50_machine. rewrite E2. eapply lr_cons; [apply (ls_edit _ _ _ C50_second [] [] Working (C92_write C92_root "z") C92_root)|]. fold z.
    change ([] ++ noticed (ss_context C50_second) Working C92_root) with [(false, C92_root)].
    eapply lr_cons; [apply ls_deliver|]. eapply lr_cons; [apply ls_done|]. eapply lr_cons; [apply ls_empty|]. constructor. }
  split; [now repeat split|]. split; [reflexivity|]. split.
  { intros p y I. assert (P : p = C92_root) by (cbn [In] in I; repeat (destruct I as [I|I]; [congruence|]); destruct I). subst p. now apply rebuilds_kept. }
  split; [exact MN|]. rewrite W. vm_compute. discriminate.
Qed.
Print Assumptions C50_live_refuted.
(** The same page changed between builds: the hypotheses of the theorem hold after the change, and everything comes to rest. *)
Example C50_live_case : exists tr0 x1 s1 tr x2, live_run C76_world Normal C50_machine tr0 C50_start x1 /\ li_server x1 = Waiting s1 /\ li_stage x1 = Ready /\ awaits [] x1 /\
  ent_distinct (ss_disk s1) /\ lookup [lit "temp"] (ss_disk s1) = None /\
  untouched_run tr /\ live_run C76_world Normal C50_machine tr x1 x2 /\ at_rest x2 /\ C92_page (li_server x2) = KFile (enc (lit "y")) /\ C92_page (li_server x1) = KFile (enc (lit "x")).
Proof.
  assert (E1 : C92_run [] = Waiting C50_first) by (vm_compute; reflexivity).
  assert (E2 : receive C76_world Normal C50_machine (Event (fun d => d) (Some C92_root)) (edit_disk (C92_write C92_root "y") C50_first) = Waiting C50_second) by (vm_compute; reflexivity).
  eexists. exists (Live (Waiting (edit_disk (C92_write C92_root "y") C50_first)) [(false, C92_root)] [] Ready). eexists. eexists. exists (Live (Waiting C50_second) [] [] Ready). split.
  { unfold C50_start, live_init. change (dev_command C76_world Normal (lit "stuart.toml") (lit "dist") [] (C76_disk "x")) with (C92_run []). rewrite E1. eapply lr_cons; [apply ls_boot|].
    eapply lr_cons; [apply (ls_edit _ _ _ C50_first [] [] Ready (C92_write C92_root "y") C92_root)|]. constructor. }
  split; [reflexivity|]. split; [reflexivity|]. split; [exists false, C92_root; split; [now left|now apply rebuilds_kept]|]. split; [|split; [vm_compute; reflexivity|split; [|split; [|split; [now repeat split|split; vm_compute; reflexivity]]]]].
  3:{ eapply lr_cons; [apply ls_deliver|]. cbn [app]. eapply lr_cons; [apply (ls_build _ _ _ _ [] false C92_root [] [[lit "dist"; lit "a"]]); [reflexivity|constructor; [vm_compute; reflexivity|constructor]]|]. cbn [map app].
      rewrite E2. eapply lr_cons; [apply ls_done|]. eapply lr_cons; [apply ls_empty|]. eapply lr_cons; [apply ls_deliver|]. cbn [app]. eapply lr_cons; [apply ls_pass; reflexivity|].
      match goal with |- live_run _ _ _ _ (Live ?r _ _ _) _ => replace r with (Waiting C50_second) by (vm_compute; reflexivity) end. constructor. }
  2:{ intros p x I. cbn [In] in I. repeat (destruct I as [I|I]; [discriminate|]). destruct I. }
  vm_compute. repeat constructor; cbn; intuition discriminate.
Qed.
(** Between builds nothing is about to be thrown away. *)
Example C50_live_between : forall dir a x tr, li_stage x = Ready -> not_lost dir ((a, x) :: tr).
Proof.
  intros dir a x tr G before b y rest E NR GY. destruct before as [|c before].
  - injection E as <- <- <-. congruence.
  - injection E as <- _. exfalso. now apply (NR a x (or_introl eq_refl)).
Qed.
(** It is changed again while a build runs, and the event arrives after the end of the build. *)
Example C50_third : session := C50_session (receive C76_world Normal C50_machine (C92_edit "z") C50_second).
Example C50_live_late : exists tr0 x1 s1 tr x2, live_run C76_world Normal C50_machine tr0 C50_start x1 /\ li_server x1 = Waiting s1 /\ li_stage x1 = Working /\ awaits [] x1 /\
  not_lost [] tr /\ untouched_run tr /\ live_run C76_world Normal C50_machine tr x1 x2 /\ at_rest x2 /\ C92_page (li_server x2) = KFile (enc (lit "z")) /\ C92_page (li_server x1) = KFile (enc (lit "y")).
Proof.
  assert (E1 : C92_run [] = Waiting C50_first) by (vm_compute; reflexivity).
  assert (E2 : receive C76_world Normal C50_machine (Event (fun d => d) (Some C92_root)) (edit_disk (C92_write C92_root "y") C50_first) = Waiting C50_second) by (vm_compute; reflexivity).
  assert (E3 : receive C76_world Normal C50_machine (Event (fun d => d) (Some C92_root)) (edit_disk (C92_write C92_root "z") C50_second) = Waiting C50_third) by (vm_compute; reflexivity).
  assert (P : ~ passed C92_root) by now apply rebuilds_kept.
  eexists. exists (Live (Waiting (edit_disk (C92_write C92_root "z") C50_second)) [(false, C92_root)] [] Working). eexists. eexists. exists (Live (Waiting C50_third) [] [] Ready). split.
  { unfold C50_start, live_init. change (dev_command C76_world Normal (lit "stuart.toml") (lit "dist") [] (C76_disk "x")) with (C92_run []). rewrite E1. eapply lr_cons; [apply ls_boot|].
    eapply lr_cons; [apply (ls_edit _ _ _ C50_first [] [] Ready (C92_write C92_root "y") C92_root)|]. change ([] ++ noticed (ss_context C50_first) Ready C92_root) with [(false, C92_root)].
    eapply lr_cons; [apply ls_deliver|]. cbn [app].
    eapply lr_cons; [apply (ls_build _ _ _ _ [] false C92_root [] []); [reflexivity|constructor]|]. cbn [map app]. rewrite E2.
    eapply lr_cons; [apply (ls_edit _ _ _ C50_second [] [] Working (C92_write C92_root "z") C92_root)|]. constructor. }
  split; [reflexivity|]. split; [reflexivity|]. split; [exists false, C92_root; split; [now left|exact P]|]. split; [|split; [|split; [|split; [now repeat split|split; vm_compute; reflexivity]]]].
  3:{ eapply lr_cons; [apply ls_done|]. eapply lr_cons; [apply ls_empty|]. eapply lr_cons; [apply ls_deliver|]. cbn [app].
      eapply lr_cons; [apply (ls_build _ _ _ _ [] false C92_root [] []); [reflexivity|constructor]|]. cbn [map app]. rewrite E3.
      eapply lr_cons; [apply ls_done|]. eapply lr_cons; [apply ls_empty|]. constructor. }
  2:{ intros p x I. cbn [In] in I. repeat (destruct I as [I|I]; [discriminate|]). destruct I. }
  intros before a y rest E NR G. destruct before as [|b0 [|b1 before]].
  - injection E as <- <- <-. discriminate G.
  - injection E as <- <- <- <-. exists false, C92_root. split; [now left|exact P].
  - exfalso. destruct before as [|b2 before].
    + injection E as <- <- <- <- <-. discriminate G.
    + injection E as <- <- <- _. eapply NR; [right; right; left; reflexivity|reflexivity].
Qed.
(** The other hypotheses of the two theorems, for a change to a page in order and to one with a mistake. *)
Example C50_content (s : string) : ent := EDir [(lit "root.html", EFile (enc (lit s))); (lit "a.html", EFile [])].
Example C50_unaware (s : string) : s = "y"%string \/ s = "{{ nope() }}"%string -> unaware (w_host C76_world) [] (C50_content s).
Proof.
  intros S. split; [intros pl []|]. intros M. apply mentions in M as (ks & body & toks & t & v & p & T & P & I & V & R). destruct T as (dirs & name & b & t0 & E & At & U & B). apply Utf8Facts.decoding in U.
  assert (F : (name = lit "root.html" \/ name = lit "a.html") /\ (b = enc (lit s) \/ b = [])).
  { clear -E At. revert E. inversion At as [|? k ? ks' ? J At']; subst. destruct J as [J|[J|[]]]; injection J as <- <-;
      (inversion At'; subst; intros E; destruct dirs as [|? [|? ?]]; try discriminate; injection E as <-; cbn; tauto). }
  destruct F as [Fn Fs].
  assert (body = t0). { destruct B as [[_ B]|[X _]]; auto. apply TreeFacts.extension_spec in X. destruct Fn as [-> | ->]; discriminate X. }
  subst t0. clear B E At Fn. destruct S as [-> | ->]; destruct Fs as [-> | ->]; vm_compute in U; injection U as <-; vm_compute in P; try discriminate P; injection P as <-; cbn [In] in I;
    repeat (destruct I as [<-|I]; [cbn [t_inner] in V; inversion V|]); destruct I.
Qed.
Example C50_live_hypotheses : forall s, s = "y"%string \/ s = "{{ nope() }}"%string -> let d := ss_disk (edit_disk (C92_write C92_root s) C50_first) in let c := init (RawConfig (lit "s") None None) [] [] (lit "dist") (lit "development") (C76_disk "x") in
  meant [] (lit "stuart.toml") [lit "stuart.toml"] /\ manifest_says C76_world [lit "stuart.toml"] d (RawConfig (lit "s") None None) [] /\
  loads_all (lo_js no_loader) (load_from_source no_loader (fun _ _ => None) []) [] d d [] /\ lookup [lit "scripts"] d = lookup [lit "scripts"] (C76_disk "x") /\
  modeless C76_world [lit "stuart.toml"] (lit "dist") /\ unaware_project C76_world [lit "stuart.toml"] [] (lit "dist") [] d /\
  (exists d' said, main C76_world Normal (CmdBuild (lit "stuart.toml") (lit "dist")) d = (d', Exit (match s with "y"%string => 0 | _ => 1 end), said) /\ (s <> "y"%string -> d' = d)) /\
  idle_scripts C50_machine c /\ inward_project c d /\
  Forall (fun n => apart (join_path [] (lit "dist")) [n]) [lit "content"; lit "static"; lit "temp"; lit "metadata.json"].
Proof.
  intros s S. cbv zeta. split; [now apply join_meant|]. split; [exists [], []; split; [destruct S as [-> | ->]; vm_compute; reflexivity|split; [constructor|reflexivity]]|]. split; [constructor|]. split; [destruct S as [-> | ->]; vm_compute; reflexivity|].
  split; [intros n x; reflexivity|]. split.
  { intros d1 content RN LC. assert (PR : pre_scripts (lookup ([] ++ [lit "scripts"]) (ss_disk (edit_disk (C92_write C92_root s) C50_first))) = []) by (destruct S as [-> | ->]; vm_compute; reflexivity).
    rewrite PR in RN. inversion RN; subst. assert (LC' : lookup ([] ++ [lit "content"]) (ss_disk (edit_disk (C92_write C92_root s) C50_first)) = Some (C50_content s)) by (destruct S as [-> | ->]; vm_compute; reflexivity).
    rewrite LC' in LC. injection LC as <-. now apply C50_unaware. }
  split; [destruct S as [-> | ->]; do 2 eexists; (split; [vm_compute; reflexivity|]); [intros X; now destruct X|intros _; vm_compute; reflexivity]|].
  split; [intros n x I; reflexivity|]. split.
  { repeat split; intros e E; try (destruct S as [-> | ->]; vm_compute in E; discriminate E).
    destruct S as [-> | ->]; vm_compute in E; injection E as <-; repeat constructor; cbn; intuition discriminate. }
  repeat constructor; intros [q X]; discriminate X.
Qed.

(** ** C51 *)
(** In an ordinary project no build starts because of another, and there are not more builds than changes. *)
Theorem C51_live_never_partial : forall w lv m manifest output d tr x, (forall a z, In (a, z) tr -> ordinary_live z) ->
  live_run w lv m tr (live_init w lv manifest output d) x -> ~ In (LBuild true) (steps tr).
Proof. exact live_never_own. Qed.
Print Assumptions C51_live_never_partial.
Theorem C51_live_count_partial : forall w lv manifest output d tr x s, (forall a z, In (a, z) tr -> ordinary_live z) ->
  live_run w lv (dev_machine w manifest output) tr (live_init w lv manifest output d) x -> li_server x = Waiting s -> ss_builds s <= S (edits (steps tr)).
Proof. intros w lv manifest output d tr x s O R X. rewrite (live_builds _ _ _ _ _ _ _ _ R X). pose proof (live_count _ _ _ _ _ _ _ _ O R). lia. Qed.
Print Assumptions C51_live_count_partial.
(** With metadata, after one change of a page builds go on for ever. *)
Example C51_world : world := World (w_host C76_world) (w_ser C76_world) [] (w_scripts C76_world)
  (fun t => TomlOk (RawConfig (lit "s") None (Some (Settings None None (Some true)))) []) no_loader (fun _ _ => None) (fun _ => no_faults) (fun _ => None) (EDir []) NewFacts.no_user None None [].
Example C51_machine : machine := dev_machine C51_world (lit "stuart.toml") (lit "dist").
Example C51_first : session := C50_session (dev_command C51_world Normal (lit "stuart.toml") (lit "dist") [] (C76_disk "x")).
Example C51_second : session := C50_session (receive C51_world Normal C51_machine (Event (fun d => d) (Some C92_root)) C51_first).
Theorem C51_live_refuted : exists w lv manifest output d, forall n, exists tr x, live_run w lv (dev_machine w manifest output) tr (live_init w lv manifest output d) x /\
  edits (steps tr) = 1 /\ SpecDev.builds (steps tr) = S n.
Proof.
  exists C51_world, Normal, (lit "stuart.toml"), (lit "dist"), (C76_disk "x"). intros n.
  assert (E1 : dev_command C51_world Normal (lit "stuart.toml") (lit "dist") [] (C76_disk "x") = Waiting C51_first) by (vm_compute; reflexivity).
  assert (E2 : receive C51_world Normal C51_machine (Event (fun d => d) (Some C92_root)) (edit_disk (fun d => d) C51_first) = Waiting C51_second) by (vm_compute; reflexivity).
  assert (E3 : cli_build C51_machine no_faults (ss_context C51_second) (ss_disk C51_second) = (ss_context C51_second, ss_disk C51_second, COk)) by (vm_compute; reflexivity).
  destruct (round_and_round C51_world Normal C51_machine (ss_context C51_second) (ss_disk C51_second) [lit "metadata.json"] (fun k => eq_refl) E3) with (n := n) (s := C51_second) (o := true) (l := @nil (bool * path)) as (tr & y & R & U & N);
    [vm_compute; reflexivity|vm_compute; reflexivity|reflexivity|reflexivity|].
  eexists. exists y. split.
  { unfold live_init. rewrite E1. fold C51_machine. eapply lr_cons; [apply ls_boot|]. eapply lr_cons; [apply (ls_edit _ _ _ C51_first [] [] Ready (fun d => d) C92_root)|].
    change ([] ++ noticed (ss_context C51_first) Ready C92_root) with [(false, C92_root)]. eapply lr_cons; [apply ls_deliver|]. cbn [app].
    eapply lr_cons; [apply (ls_build _ _ _ _ [] false C92_root [] [[lit "metadata.json"]]); [reflexivity|constructor; [vm_compute; reflexivity|constructor]]|]. cbn [map app]. rewrite E2.
    eapply lr_cons; [apply ls_done|]. eapply lr_cons; [apply ls_empty|]. eapply lr_cons; [apply ls_deliver|]. cbn [app]. exact R. }
  unfold steps in *. cbn [map fst edits SpecDev.builds]. split; [|now rewrite N].
  f_equal. clear - U. induction tr as [|[[p| |] x] tr IH]; [reflexivity| | |]; cbn [map fst edits].
  - exfalso. apply (U p x). now left.
  - apply IH. intros q z I. apply (U q z). now right.
  - apply IH. intros q z I. apply (U q z). now right.
Qed.
Print Assumptions C51_live_refuted.
(** The same with a script that writes a page, without metadata. *)
Example C51_scripted : world := World (w_host C76_world) (w_ser C76_world) [] (fun _ _ d => (update [lit "content"; lit "n.html"] (Some (EFile [])) d, ScriptOk))
  (fun t => TomlOk (RawConfig (lit "s") None None) []) no_loader (fun _ _ => None) (fun _ => no_faults) (fun _ => None) (EDir []) NewFacts.no_user None None [].
Example C51_scripts : ent := EDir [(lit "stuart.toml", EFile []); (lit "scripts", EDir [(lit "onPreBuild.sh", EFile [])]);
  (lit "content", EDir [(lit "root.html", EFile (enc (lit "x"))); (lit "a.html", EFile []); (lit "n.html", EFile [])])].
Example C51_scripter : machine := dev_machine C51_scripted (lit "stuart.toml") (lit "dist").
Example C51_before : session := C50_session (dev_command C51_scripted Normal (lit "stuart.toml") (lit "dist") [] C51_scripts).
Example C51_after : session := C50_session (receive C51_scripted Normal C51_scripter (Event (fun d => d) (Some C92_root)) C51_before).
Theorem C51_script_refuted : exists w lv manifest d, (forall t, w_toml w t = TomlOk (RawConfig (lit "s") None None) []) /\
  forall n, exists tr x, live_run w lv (dev_machine w manifest (lit "dist")) tr (live_init w lv manifest (lit "dist") d) x /\
  edits (steps tr) = 1 /\ SpecDev.builds (steps tr) = S n.
Proof.
  exists C51_scripted, Normal, (lit "stuart.toml"), C51_scripts. split; [reflexivity|]. intros n.
  assert (E1 : dev_command C51_scripted Normal (lit "stuart.toml") (lit "dist") [] C51_scripts = Waiting C51_before) by (vm_compute; reflexivity).
  assert (E2 : receive C51_scripted Normal C51_scripter (Event (fun d => d) (Some C92_root)) (edit_disk (fun d => d) C51_before) = Waiting C51_after) by (vm_compute; reflexivity).
  assert (E3 : cli_build C51_scripter no_faults (ss_context C51_after) (ss_disk C51_after) = (ss_context C51_after, ss_disk C51_after, COk)) by (vm_compute; reflexivity).
  destruct (round_and_round C51_scripted Normal C51_scripter (ss_context C51_after) (ss_disk C51_after) [lit "content"; lit "n.html"] (fun k => eq_refl) E3) with (n := n) (s := C51_after) (o := true) (l := @nil (bool * path)) as (tr & y & R & U & N);
    [vm_compute; reflexivity|vm_compute; reflexivity|reflexivity|reflexivity|].
  eexists. exists y. split.
  { unfold live_init. rewrite E1. fold C51_scripter. eapply lr_cons; [apply ls_boot|]. eapply lr_cons; [apply (ls_edit _ _ _ C51_before [] [] Ready (fun d => d) C92_root)|].
    change ([] ++ noticed (ss_context C51_before) Ready C92_root) with [(false, C92_root)]. eapply lr_cons; [apply ls_deliver|]. cbn [app].
    eapply lr_cons; [apply (ls_build _ _ _ _ [] false C92_root [] [[lit "content"; lit "n.html"]]); [reflexivity|constructor; [vm_compute; reflexivity|constructor]]|]. cbn [map app]. rewrite E2.
    eapply lr_cons; [apply ls_done|]. eapply lr_cons; [apply ls_empty|]. eapply lr_cons; [apply ls_deliver|]. cbn [app]. exact R. }
  unfold steps in *. cbn [map fst edits SpecDev.builds]. split; [|now rewrite N].
  f_equal. clear - U. induction tr as [|[[p| |] x] tr IH]; [reflexivity| | |]; cbn [map fst edits].
  - exfalso. apply (U p x). now left.
  - apply IH. intros q z I. apply (U q z). now right.
  - apply IH. intros q z I. apply (U q z). now right.
Qed.
Print Assumptions C51_script_refuted.
Example C51_live_case : ordinary C50_first.
Proof.
  repeat split; try (vm_compute; reflexivity); intros e E; vm_compute in E; try discriminate E. injection E as <-. repeat constructor; cbn; intuition discriminate.
Qed.
