(** StateCliFacts.v -- commands with plugins that keep state (C66, C67, C96). *)

From Coq Require Import String List NArith ZArith Bool Lia.
From Verif Require Import Text Utf8 Json Base Syntax Parse Tree Interp Build Disk Cli Load Dev New Report Main Server Js State StateCli SpecTree SpecState StateFacts.
From Verif Require Import BuilderFacts CliFacts.
Import ListNotations.

Lemma snd_bnd {X A B} (m : st X A) (f : A -> B) x : snd (bnd m (fun a => ret (f a)) x) = f (snd (m x)).
Proof. unfold bnd, ret. now destruct (m x). Qed.
Lemma merged_kept h dir names d : forall st, st_plugins (fst (merge_dirs h dir names d st)) = st_plugins st.
Proof.
  induction names as [|n names IH]; intros st; [reflexivity|]. cbn [merge_dirs]. destruct (lookup (dir ++ [n]) d) as [e|]; [|apply IH].
  destruct (node_new h [] false (dir ++ [n]) n (Some e)) as [t| | |]; try reflexivity.
  assert (M := merge_kept t st). destruct (merge_output t st) as [st' [u| | |]]; cbn [fst] in *; try apply M. rewrite IH. apply M.
Qed.
Lemma plugins_kept m f c d c' d' r : cli_build m f c d = (c', d', r) -> st_plugins (cx_stuart c') = st_plugins (cx_stuart c).
Proof.
  unfold cli_build. destruct (run_scripts _ _ d) as [d1 [e|]]; [intros E; now injection E as <- _ _|].
  assert (K : st_plugins (fst (build_and_merge m c d1)) = st_plugins (cx_stuart c)).
  { unfold build_and_merge. assert (B := build_kept (m_host m) (m_osenv m) (cx_mode c) (source_at (cx_dir c ++ [lit "content"]) d1) (cx_stuart c)).
    destruct (build _ _ _ _ _) as [st1 r1]. cbn [fst] in B. destruct r1; cbn [fst]; try apply B.
    rewrite merged_kept. apply B. }
  destruct (build_and_merge m c d1) as [st1 [u|e|p|]]; cbn [fst] in K; try (intros E; now injection E as <- _ _).
  destruct (save _ _ _ _) as [d3 [u3|e|p|]]; try (intros E; now injection E as <- _ _).
  destruct (if cf_meta _ then _ else _) as [d4 [u4|e|p|]]; try (intros E; now injection E as <- _ _).
  destruct (run_scripts _ (cx_post c) d4) as [d5 [e|]]; intros E; now injection E as <- _ _.
Qed.
Section Plain.
  Context {X : Type}.
  Variable beh : State.behaviour X.
  Let idle (p : plugin_fn) : Prop := forall l s x, snd (beh p l s x) = pf_exec p l s.

  Lemma scli_plain m f c d x : plugins_give idle (st_plugins (cx_stuart c)) ->
    snd (scli_build beh m f c d x) = cli_build m f c d.
  Proof.
    intros G. unfold scli_build, cli_build. destruct (run_scripts (m_script m) (cx_pre c) d) as [d1 [e|]]; [reflexivity|].
    rewrite snd_bnd. unfold sbuild_and_merge. rewrite snd_bnd. unfold build_and_merge. now rewrite (answers_plain beh _ _ _ _ _ x G).
  Qed.
  Lemma sbench_plain m fs iters r ps dir d x : plugins_give idle ps ->
    snd (sbench beh m fs iters r ps dir d x) = bench m fs iters r ps dir d.
  Proof.
    intros G. unfold sbench, bench. destruct (parse_usize iters) as [n|]; [|reflexivity].
    assert (H : plugins_give idle (st_plugins (cx_stuart (init r ps dir (lit "dist") (lit "benchmark") d)))) by exact G.
    revert H. generalize (init r ps dir (lit "dist") (lit "benchmark") d). generalize 0. clear G. revert d x.
    induction (N.to_nat n) as [|k IH]; intros d x j c G; [reflexivity|]. cbn [sbench_loop bench_loop]. unfold bnd.
    assert (E := scli_plain m (fs j) c d x G). destruct (scli_build beh m (fs j) c d x) as [x1 [[c1 d1] r1]]. cbn [snd] in E. rewrite <- E.
    destruct r1; try reflexivity. apply IH. symmetry in E. apply plugins_kept in E. now rewrite E.
  Qed.
  Lemma says_plain m f c d x : plugins_give idle (st_plugins (cx_stuart c)) -> sbuild_says beh m f c d x = build_says m f c d.
  Proof.
    intros G. unfold sbuild_says, build_says. destruct (run_scripts (m_script m) (cx_pre c) d) as [d1 [e|]]; [reflexivity|].
    unfold sbuild_and_merge. rewrite snd_bnd. unfold build_and_merge. now rewrite (answers_plain beh _ _ _ _ _ x G).
  Qed.
  Lemma scommand_plain w manifest output d x :
    (forall d1 c said, start w manifest output (lit "production") d = (d1, SOk c, said) -> plugins_give idle (st_plugins (cx_stuart c))) ->
    snd (sbuild_command beh w manifest output d x) = build_command w manifest output d.
  Proof.
    unfold sbuild_command, build_command. destruct (start w manifest output (lit "production") d) as [[d1 [c|e|p]] said]; try reflexivity.
    intros G. specialize (G _ _ _ eq_refl). rewrite says_plain by exact G. set (m := machine_of _ _ _ _).
    assert (E := scli_plain m (w_build_faults w 0) c d1 x G). destruct (scli_build beh m _ c d1 x) as [x1 [[c1 e1] r1]]. cbn [snd] in E. now rewrite <- E.
  Qed.
  Lemma sdev_plain w lv manifest output evs d x :
    (forall d1 c said, start w manifest output (lit "development") d = (d1, SOk c, said) -> plugins_give idle (st_plugins (cx_stuart c))) ->
    snd (sdev_command beh w lv manifest output evs d x) = dev_command w lv manifest output evs d.
  Proof.
    unfold sdev_command, dev_command. destruct (start w manifest output (lit "development") d) as [[d1 [c|e|p]] said]; try reflexivity.
    intros G. specialize (G _ _ _ eq_refl). set (m := machine_of _ _ _ _).
    assert (B : forall tell s x, plugins_give idle (st_plugins (cx_stuart (ss_context s))) ->
      snd (sdev_build beh w lv m tell s x) = dev_build w lv m tell s /\
      forall s', dev_build w lv m tell s = Waiting s' -> plugins_give idle (st_plugins (cx_stuart (ss_context s')))).
    { clear. intros tell s x G. unfold sdev_build, dev_build. rewrite says_plain by exact G.
      assert (E := scli_plain m (w_build_faults w (ss_builds s)) (ss_context s) (ss_disk s) x G).
      destruct (scli_build beh m _ _ _ x) as [x1 [[c1 e1] r1]]. cbn [snd] in E. symmetry in E. rewrite E. apply plugins_kept in E.
      destruct r1; (split; [reflexivity|]); intros s' K; try discriminate; injection K as <-; cbn [ss_context]; now rewrite E. }
    assert (W : forall evs y x, (forall s, y = Waiting s -> plugins_give idle (st_plugins (cx_stuart (ss_context s)))) ->
      snd (swatch beh w lv m evs y x) = watch w lv m evs y).
    { clear - B. induction evs as [|ev evs IH]; intros [s|d e l] x G; try reflexivity. cbn [swatch watch]. specialize (G s eq_refl).
      unfold bnd, sreceive, receive. destruct (match ev_path ev with Some p => strip_path (cx_dir (ss_context s)) p | None => None end) as [p|].
      2: { cbn [ret]. unfold ret. now rewrite IH by discriminate. }
      destruct (ignored_event p); [unfold ret; rewrite IH; [reflexivity|]; intros s' K; injection K as <-; exact G|].
      destruct (last_is _ p); [unfold ret; rewrite IH; [reflexivity|]; intros s' K; injection K as <-; exact G|].
      match goal with |- context [sdev_build beh w lv m true ?s'] => destruct (B true s' x G) as [E K]; destruct (sdev_build beh w lv m true s' x) as [x1 y1] end.
      cbn [snd] in E. subst y1. now apply IH. }
    match goal with |- context [sdev_build beh w lv m false ?s'] => unfold bnd; destruct (B false s' x G) as [E K]; destruct (sdev_build beh w lv m false s' x) as [x1 y1] end.
    cbn [snd] in E. subst y1. now apply W.
  Qed.
End Plain.

(** ** The calls of the commands *)
Section Par.
  Context {X1 X2 : Type}.
  Variable b1 : State.behaviour X1.
  Variable b2 : State.behaviour X2.
  Variable R : forall A : Type, st X1 A -> st X2 A -> Prop.
  Hypothesis R_ret : forall A (a : A), R A (ret a) (ret a).
  Hypothesis R_bnd : forall A B m1 m2 (f1 : A -> st X1 B) f2 (Q : A -> Prop), R A m1 m2 -> (forall x x' a, m1 x = (x', a) -> Q a) ->
    (forall a, Q a -> R B (f1 a) (f2 a)) -> R B (bnd m1 f1) (bnd m2 f2).
  Hypothesis R_beh : forall p l s, R _ (b1 p l s) (b2 p l s).
  Hypothesis R_ext : forall A m1 m2 m1' m2', R A m1 m2 -> (forall x, m1' x = m1 x) -> (forall x, m2' x = m2 x) -> R A m1' m2'.
  Lemma R_then A B m1 m2 (f1 : A -> st X1 B) f2 : R A m1 m2 -> (forall a, R B (f1 a) (f2 a)) -> R B (bnd m1 f1) (bnd m2 f2).
  Proof. intros M F. apply (R_bnd _ _ _ _ _ _ (fun _ => True)); auto. Qed.
  Lemma R_merge m c d : R _ (sbuild_and_merge b1 m c d) (sbuild_and_merge b2 m c d).
  Proof.
    apply R_then; [|intros r; apply R_ret]. apply (R_build b1 b2 R (fun _ => True)); auto. now intros pl f raw g _ _ _.
  Qed.
  Lemma R_cli m f c d : R _ (scli_build b1 m f c d) (scli_build b2 m f c d).
  Proof.
    unfold scli_build. destruct (run_scripts _ _ d) as [d1 [e|]]; [apply R_ret|]. apply R_then; [apply R_merge|]. intros r. apply R_ret.
  Qed.
  Lemma R_loop m fs n : forall k c d, R _ (sbench_loop b1 m fs k n c d) (sbench_loop b2 m fs k n c d).
  Proof.
    induction n as [|n IH]; intros k c d; cbn [sbench_loop]; [apply R_ret|]. apply R_then; [apply R_cli|].
    intros [[c' d'] [|e|p|]]; try apply R_ret. apply IH.
  Qed.
  Lemma R_bench m fs iters r ps dir d : R _ (sbench b1 m fs iters r ps dir d) (sbench b2 m fs iters r ps dir d).
  Proof. unfold sbench. destruct (parse_usize iters); [apply R_loop|apply R_ret]. Qed.
  Lemma R_says m f c d : R _ (fun x => (fst (scli_build b1 m f c d x), (snd (scli_build b1 m f c d x), sbuild_says b1 m f c d x)))
                            (fun x => (fst (scli_build b2 m f c d x), (snd (scli_build b2 m f c d x), sbuild_says b2 m f c d x))).
  Proof.
    destruct (run_scripts (m_script m) (cx_pre c) d) as [d1 [e|]] eqn:RS.
    { unfold scli_build, sbuild_says. rewrite RS. apply (R_ext _ (ret (c, d1, CErr e, scripts_say (m_script m) (cx_pre c) d ++ [])) (ret (c, d1, CErr e, scripts_say (m_script m) (cx_pre c) d ++ []))); [apply R_ret| |]; reflexivity. }
    assert (K : exists k, (forall x, bnd (sbuild_and_merge b1 m c d1) (fun r => ret (k r)) x = (fst (scli_build b1 m f c d x), (snd (scli_build b1 m f c d x), sbuild_says b1 m f c d x))) /\
      (forall x, bnd (sbuild_and_merge b2 m c d1) (fun r => ret (k r)) x = (fst (scli_build b2 m f c d x), (snd (scli_build b2 m f c d x), sbuild_says b2 m f c d x)))).
    { unfold scli_build, sbuild_says. rewrite RS. eexists. split; intros x; unfold bnd, ret.
      - destruct (sbuild_and_merge b1 m c d1 x) as [x1 r]. cbn [fst snd]. reflexivity.
      - destruct (sbuild_and_merge b2 m c d1 x) as [x1 r]. cbn [fst snd]. reflexivity. }
    destruct K as (k & K1 & K2). eapply R_ext; [| |].
    - apply (R_then _ _ _ _ (fun r => ret (k r)) (fun r => ret (k r)) (R_merge m c d1)). intros r. apply R_ret.
    - intros x. now rewrite K1.
    - intros x. now rewrite K2.
  Qed.
  Lemma R_command w manifest output d : R _ (sbuild_command b1 w manifest output d) (sbuild_command b2 w manifest output d).
  Proof.
    unfold sbuild_command. destruct (start w manifest output (lit "production") d) as [[d1 [c|e|p]] said]; try apply R_ret.
    set (m := machine_of _ _ _ _). eapply R_ext.
    - apply (R_then _ _ _ _ (fun a => match a with ((_, d2, r), s) => ret (d2, outcome_of r, said ++ s) end)
                            (fun a => match a with ((_, d2, r), s) => ret (d2, outcome_of r, said ++ s) end) (R_says m (w_build_faults w 0) c d1)).
      intros [[[c2 d2] r] s]. apply R_ret.
    - intros x. unfold bnd. now destruct (scli_build b1 m _ c d1 x) as [x1 [[c2 d2] r]].
    - intros x. unfold bnd. now destruct (scli_build b2 m _ c d1 x) as [x1 [[c2 d2] r]].
  Qed.
  Lemma R_dev_build w lv m tell s : R _ (sdev_build b1 w lv m tell s) (sdev_build b2 w lv m tell s).
  Proof.
    set (k := fun (a : context * ent * cli_result * list note) =>
      let shown := ss_shown s ++ filter (let_through lv) (snd a) in
      match fst a with
      | (c, d, COk) => Waiting (Session c d (S (ss_builds s)) shown (if tell then S (ss_reloads s) else ss_reloads s))
      | (c, d, CErr e) => Waiting (Session c d (S (ss_builds s)) (dev_report (main_error_of e) shown) (ss_reloads s))
      | (_, d, CPanic _) => Over d (Exit 101) shown
      | (_, d, CFuel) => Over d Runs shown
      end).
    eapply R_ext.
    - apply (R_then _ _ _ _ (fun a => ret (k a)) (fun a => ret (k a)) (R_says m (w_build_faults w (ss_builds s)) (ss_context s) (ss_disk s))).
      intros a. apply R_ret.
    - intros x. unfold sdev_build, bnd, ret, k. now destruct (scli_build b1 m _ _ _ x) as [x1 [[c2 d2] [|e|p|]]].
    - intros x. unfold sdev_build, bnd, ret, k. now destruct (scli_build b2 m _ _ _ x) as [x1 [[c2 d2] [|e|p|]]].
  Qed.
  Lemma R_watch w lv m evs : forall y, R _ (swatch b1 w lv m evs y) (swatch b2 w lv m evs y).
  Proof.
    induction evs as [|ev evs IH]; intros [s|d e l]; cbn [swatch]; try apply R_ret. apply R_then; [|exact IH].
    unfold sreceive. destruct (match ev_path ev with Some p => strip_path _ p | None => None end) as [p|]; [|apply R_ret].
    destruct (ignored_event p); [apply R_ret|]. destruct (last_is _ p); [apply R_ret|apply R_dev_build].
  Qed.
  Lemma R_dev w lv manifest output evs d : R _ (sdev_command b1 w lv manifest output evs d) (sdev_command b2 w lv manifest output evs d).
  Proof.
    unfold sdev_command. destruct (start w manifest output (lit "development") d) as [[d1 [c|e|p]] said]; try apply R_ret.
    apply R_then; [apply R_dev_build|]. intros y. apply R_watch.
  Qed.
End Par.

(** Something that keeps all these relations is done call by call. *)
Lemma by_calls {Y A} (code : N -> text -> option (sjs_code Y)) (does : forall X, State.behaviour X -> st X A) :
  (forall X1 X2 (b1 : State.behaviour X1) (b2 : State.behaviour X2) (R : forall A : Type, st X1 A -> st X2 A -> Prop),
    (forall A (a : A), R A (ret a) (ret a)) ->
    (forall A B m1 m2 (f1 : A -> st X1 B) f2 (Q : A -> Prop), R A m1 m2 -> (forall x x' a, m1 x = (x', a) -> Q a) ->
      (forall a, Q a -> R B (f1 a) (f2 a)) -> R B (bnd m1 f1) (bnd m2 f2)) ->
    (forall p l s, R _ (b1 p l s) (b2 p l s)) ->
    (forall A m1 m2 m1' m2', R A m1 m2 -> (forall x, m1' x = m1 x) -> (forall x, m2' x = m2 x) -> R A m1' m2') ->
    R A (does _ b1) (does _ b2)) ->
  call_by_call code does.
Proof.
  intros K x. set (beh := js_behaviour code). set (T := fun (x : contexts Y) q x' => forall c, replays code c (x c) q (x' c)).
  assert (T_none : forall x, T x [] x) by (intros y c; constructor).
  assert (T_app : forall x1 x2 x3 q q', T x1 q x2 -> T x2 q' x3 -> T x1 (q ++ q') x3) by (intros x1 x2 x3 q q' B C c; now apply (replays_app code c q (x1 c) (x2 c))).
  assert (T_one : forall p l s x x1 a, beh p l s x = (x1, a) -> T x [Call p l s a] x1) by (intros p l s y y1 a E c; now apply replay_one).
  set (Rec := fun A (m : st (contexts Y * list call) A) (m2 : st (contexts Y) A) =>
    forall x g, exists q, m (x, g) = ((fst (m2 x), g ++ q), snd (m2 x)) /\ T x q (fst (m2 x))).
  set (Scr := fun A (m : st (contexts Y * list call) A) (m2 : st (list call) A) =>
    forall x g, exists q, snd (fst (m (x, g))) = g ++ q /\ forall q', m2 (q ++ q') = (q', snd (m (x, g)))).
  assert (E1 : Rec _ (does _ (recording beh)) (does _ beh)).
  { apply K; unfold Rec.
    - intros B a y g. exists []. cbn. rewrite app_nil_r. auto.
    - intros B C m1 m2 f1 f2 Q M J F y g. destruct (M y g) as (q & M1 & M2). rewrite !run_st, M1. cbn [fst snd].
      destruct (F _ (J _ _ _ M1) (fst (m2 y)) (g ++ q)) as (q' & F1 & F2). exists (q ++ q'). rewrite F1, app_assoc. split; [reflexivity|]. eauto.
    - intros p l s y g. unfold recording. cbn [fst snd]. destruct (beh p l s y) as [x1 a] eqn:E. exists [Call p l s a]. cbn [fst snd]. eauto.
    - intros B m1 m2 m1' m2' M J1 J2 y g. rewrite J1, J2. apply M. }
  assert (E2 : Scr _ (does _ (recording beh)) (does _ scripted)).
  { apply K; unfold Scr.
    - intros B a y g. exists []. cbn. rewrite app_nil_r. auto.
    - intros B C m1 m2 f1 f2 Q M J F y g. destruct (M y g) as (q & M1 & M2). rewrite !run_st. destruct (m1 (y, g)) as [[x1 g1] a] eqn:E. cbn [fst snd] in *. subst g1.
      destruct (F _ (J _ _ _ E) x1 (g ++ q)) as (q' & F1 & F2). exists (q ++ q'). rewrite F1, app_assoc. split; [reflexivity|].
      intros r. rewrite run_st, <- app_assoc, M2. cbn [fst snd]. apply F2.
    - intros p l s y g. unfold recording, scripted. cbn [fst snd]. destruct (beh p l s y) as [x1 a] eqn:E. exists [Call p l s a]. cbn [fst snd app ca_answer]. auto.
    - intros B m1 m2 m1' m2' M J1 J2 y g. destruct (M y g) as (q & M1 & M2). exists q. rewrite J1. split; [exact M1|]. intros q'. rewrite J2. apply M2. }
  destruct (E1 x []) as (q & B & C). destruct (E2 x []) as (q' & D & F). cbn [app] in *. destruct (does _ beh x) as [x' r]. cbn [fst snd] in *.
  rewrite B in D, F. cbn [fst snd] in *. subst q'. exists q, x', r. specialize (F []). rewrite app_nil_r in F. auto.
Qed.
Lemma commands_calls {Y} (code : N -> text -> option (sjs_code Y)) :
  (forall m f c d, call_by_call code (fun X beh => scli_build beh m f c d)) /\
  (forall m fs iters r ps dir d, call_by_call code (fun X beh => sbench beh m fs iters r ps dir d)) /\
  (forall w manifest output d, call_by_call code (fun X beh => sbuild_command beh w manifest output d)) /\
  (forall w lv manifest output evs d, call_by_call code (fun X beh => sdev_command beh w lv manifest output evs d)).
Proof.
  split; [|split; [|split]]; intros; apply by_calls; intros X1 X2 b1 b2 R H1 H2 H3 H4.
  - now apply (R_cli b1 b2 R).
  - now apply (R_bench b1 b2 R).
  - now apply (R_command b1 b2 R).
  - now apply (R_dev b1 b2 R).
Qed.
