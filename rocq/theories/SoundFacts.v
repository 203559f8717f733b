(** SoundFacts.v -- a page without loops inside loops that renders, renders as its blocks say (C20). *)

From Coq Require Import String List NArith ZArith Bool Lia.
From Verif Require Import Text TextFacts Utf8 Json Base Syntax Parse Tree Interp SpecScope InterpFacts ScopeFacts SpecRender
  RenderFacts SpecLoop SelectFacts LoopFacts BlockFacts SpecBlocks SpecSound.
Import ListNotations.

(** ** The blocks that are open at a position of the text *)
Definition step (st : list text) (t : ltoken) : list text :=
  match t_inner t with
  | TFun (FBegin _ _) => lit "begin" :: st
  | TFun (FFor _) => lit "for" :: st
  | TFun (FIfDefined _) => lit "ifdefined" :: st
  | TFun (FIf c _ _) => cmp_name c :: st
  | TFun (FEnd _ _) => tl st
  | _ => st
  end.
Definition static (toks : list ltoken) (i : nat) : list text := fold_left step (firstn i toks) [].

(** Ends close what is open, and loops are not nested. *)
Fixpoint good (st : list text) (toks : list ltoken) : Prop :=
  match toks with
  | [] => True
  | t :: toks' =>
      match t_inner t with
      | TFun (FEnd label custom) => exists st', st = (if custom then lit "begin" else label) :: st'
      | TFun (FFor _) => ~ In (lit "for") st
      | _ => True
      end /\ good (step st t) toks'
  end.
Lemma good_app a b : forall st, good st (a ++ b) <-> good st a /\ good (fold_left step a st) b.
Proof.
  induction a as [|t a IH]; intros st; cbn [good app fold_left]; [tauto|]. rewrite IH. tauto.
Qed.

Lemma step_leaf t st : is_leaf (t_inner t) = true -> step st t = st.
Proof. unfold step. destruct (t_inner t) as [|g|]; auto. destruct g; cbn; auto; discriminate. Qed.
Lemma step_test c l st : step st (LTok (TFun (test_fn c)) l) = test_name c :: st.
Proof. destruct c as [v|c a b]; reflexivity. Qed.
Lemma step_section label r l st k : step (k :: st) (LTok (TFun (section_end label r)) l) = st.
Proof. unfold section_end. now destruct r. Qed.

Lemma flat_static i : well_formed i -> forall st, fold_left step (flat i) st = st.
Proof.
  assert (L : forall l, Forall (fun i => well_formed i -> forall st, fold_left step (flat i) st = st) l -> all_wf l ->
    forall st, fold_left step (flat_map flat l) st = st).
  { intros l H. induction H as [|j l Hj Hl IH]; intros WF st; cbn [flat_map]; [reflexivity|]. destruct WF as [W1 W2].
    rewrite fold_left_app, (Hj W1). now apply IH. }
  induction i using item_induct; intros WF st; cbn [flat fold_left].
  - now apply step_leaf.
  - reflexivity.
  - change (step st _) with (lit "begin" :: st). rewrite fold_left_app, (L _ H WF). cbn [fold_left]. apply step_section.
  - change (step st _) with (lit "for" :: st). rewrite fold_left_app, (L _ H WF). reflexivity.
  - rewrite step_test. rewrite fold_left_app, (L _ H WF). reflexivity.
  - destruct WF as [W1 W2]. rewrite step_test. rewrite fold_left_app, (L _ H W1). cbn [fold_left].
    change (step (test_name c :: st) (LTok (TFun FElse) le)) with (test_name c :: st).
    rewrite fold_left_app, (L _ H0 W2). reflexivity.
Qed.
Lemma flats_static l : all_wf l -> forall st, fold_left step (flat_map flat l) st = st.
Proof.
  induction l as [|i l IH]; intros WF st; cbn [flat_map]; [reflexivity|]. destruct WF as [W1 W2].
  rewrite fold_left_app, (flat_static i W1). now apply IH.
Qed.

Lemma test_name_for c : test_name c <> lit "for".
Proof. destruct c as [v|c a b]; [discriminate|]. destruct c; discriminate. Qed.

(** Inside a loop there is none. *)
Definition fits (st : list text) (i : item) : Prop := loops_apart i = true /\ (In (lit "for") st -> has_loop i = false).
Definition fit_all (st : list text) (l : list item) : Prop :=
  forallb loops_apart l = true /\ (In (lit "for") st -> existsb has_loop l = false).
Lemma fit_all_cons st i l : fit_all st (i :: l) <-> fits st i /\ fit_all st l.
Proof.
  unfold fit_all, fits. cbn [forallb existsb]. rewrite andb_true_iff, orb_false_iff. tauto.
Qed.
Lemma no_loop_apart i : has_loop i = false -> loops_apart i = true.
Proof.
  assert (L : forall l, Forall (fun i => has_loop i = false -> loops_apart i = true) l -> existsb has_loop l = false -> forallb loops_apart l = true).
  { intros l H. induction H as [|j l Hj Hl IH]; cbn; [reflexivity|]. intros E. apply orb_false_iff in E as [E1 E2]. rewrite Hj by exact E1. now apply IH. }
  induction i using item_induct; cbn [has_loop loops_apart]; intros E; auto.
  - discriminate E.
  - apply orb_false_iff in E as [E1 E2]. rewrite (L _ H E1). now apply L.
Qed.
Lemma no_loops_apart l : existsb has_loop l = false -> forallb loops_apart l = true.
Proof.
  induction l as [|i l IH]; cbn; [reflexivity|]. intros E. apply orb_false_iff in E as [E1 E2].
  rewrite (no_loop_apart i E1). now apply IH.
Qed.
Lemma fit_sub st k i : k <> lit "for" -> forall body, (loops_apart i = true -> forallb loops_apart body = true) ->
  (has_loop i = false -> existsb has_loop body = false) -> fits st i -> fit_all (k :: st) body.
Proof. intros K body H1 H2 [F1 F2]. split; [auto|]. intros [E|E]; [congruence|auto]. Qed.
Lemma fit_section st l a b body c l' : fits st (ISection l a b body c l') -> fit_all (lit "begin" :: st) body.
Proof. intros F. apply (fit_sub st (lit "begin") (ISection l a b body c l') ltac:(discriminate) body (fun H => H) (fun H => H) F). Qed.
Lemma fit_if st l c yes l' : fits st (IIf l c yes l') -> fit_all (test_name c :: st) yes.
Proof. intros F. apply (fit_sub st _ (IIf l c yes l') (test_name_for c) yes (fun H => H) (fun H => H) F). Qed.
Lemma fit_ifelse st l c yes le no l' : fits st (IIfElse l c yes le no l') ->
  fit_all (test_name c :: st) yes /\ fit_all (test_name c :: st) no.
Proof.
  intros F. split; apply (fit_sub st _ (IIfElse l c yes le no l') (test_name_for c)); try exact F; cbn [loops_apart has_loop]; intros H;
    first [now apply andb_prop in H as [H1 H2] | now apply orb_false_iff in H as [H1 H2]].
Qed.
Lemma fit_for st l f body l' : fits st (IFor l f body l') -> ~ In (lit "for") st /\ forall k, fit_all (k :: st) body.
Proof.
  intros [F1 F2]. cbn in F1, F2. apply negb_true_iff in F1. split; [intros H; discriminate (F2 H)|].
  intros k. split; [now apply no_loops_apart|]. now intros _.
Qed.

Lemma flat_good i : well_formed i -> forall st, fits st i -> good st (flat i).
Proof.
  assert (L : forall l, Forall (fun i => well_formed i -> forall st, fits st i -> good st (flat i)) l -> all_wf l ->
    forall st, fit_all st l -> good st (flat_map flat l)).
  { intros l H. induction H as [|j l Hj Hl IH]; intros WF st F; cbn [flat_map]; [exact I|]. destruct WF as [W1 W2].
    apply fit_all_cons in F as [F1 F2]. apply good_app. split; [now apply Hj|]. rewrite flat_static by exact W1. now apply IH. }
  induction i using item_induct; intros WF st F; cbn [flat].
  - cbn [good]. split; [|exact I]. cbn in WF. destruct (t_inner t) as [|g|]; auto. destruct g; auto; discriminate WF.
  - cbn. tauto.
  - cbn [good t_inner]. split; [exact I|]. change (step st _) with (lit "begin" :: st). apply good_app.
    split; [apply L; auto; now apply fit_section in F|]. rewrite flats_static by exact WF. cbn [good]. split; [|exact I].
    unfold section_end. cbn [t_inner]. destruct c; now exists st.
  - apply fit_for in F as [F1 F2]. cbn [good t_inner]. split; [exact F1|]. change (step st _) with (lit "for" :: st). apply good_app.
    split; [apply L; auto|]. rewrite flats_static by exact WF. cbn. split; [now exists st|exact I].
  - apply fit_if in F. cbn [good]. split; [destruct c as [v|c a b]; exact I|]. rewrite step_test. apply good_app.
    split; [apply L; auto|]. rewrite flats_static by exact WF. cbn. split; [now exists st|exact I].
  - destruct WF as [W1 W2]. apply fit_ifelse in F as [F1 F2]. cbn [good]. split; [destruct c as [v|c a b]; exact I|].
    rewrite step_test. apply good_app. split; [apply L; auto|]. rewrite flats_static by exact W1. cbn [good t_inner].
    split; [exact I|]. change (step (test_name c :: st) (LTok (TFun FElse) le)) with (test_name c :: st).
    apply good_app. split; [apply L; auto|]. rewrite flats_static by exact W2. cbn. split; [now exists st|exact I].
Qed.
Lemma flats_good l : all_wf l -> forall st, fit_all st l -> good st (flat_map flat l).
Proof.
  induction l as [|i l IH]; intros WF st F; cbn [flat_map]; [exact I|]. destruct WF as [W1 W2].
  apply fit_all_cons in F as [F1 F2]. apply good_app. split; [now apply flat_good|]. rewrite flat_static by exact W1. now apply IH.
Qed.
Lemma flat_plugins i : well_formed i -> plugins_of plugin_ok (flat i).
Proof.
  assert (L : forall l, Forall (fun i => well_formed i -> plugins_of plugin_ok (flat i)) l -> all_wf l -> plugins_of plugin_ok (flat_map flat l)).
  { intros l H. induction H as [|j l Hj Hl IH]; intros WF; cbn [flat_map]; [intros p lo []|]. destruct WF as [W1 W2].
    intros p lo K. apply in_app_or in K as [K|K]; [exact (Hj W1 p lo K)|exact (IH W2 p lo K)]. }
  induction i using item_induct; intros WF p0 lo K; cbn [flat] in K.
  - destruct K as [->|[]]. discriminate WF.
  - destruct K as [E|[]]. injection E as -> ->. cbn in WF. destruct WF as [_ B]. intros l0 s N.
    destruct (sc_stack s) as [|f r] eqn:S; [contradiction|]. rewrite (B l0 s f r S).
    destruct (beh l0 _ _) as [[o new]|e|q|]; try exact I; [|now exists e]. cbn [sc_idx sc_secs sc_stack]. split; [reflexivity|].
    split; [exists []; now rewrite app_nil_r|]. exists f, (Frame (fr_name f) (fr_vars f ++ new) (fr_out f ++ o)), r.
    split; [reflexivity|]. split; [reflexivity|]. split; [reflexivity|]. split; [now exists new|now exists o].
  - destruct K as [K|K]; [discriminate K|]. apply in_app_or in K as [K|[K|[]]]; [exact (L _ H WF _ _ K)|].
    unfold section_end in K. destruct c; discriminate K.
  - destruct K as [K|K]; [discriminate K|]. apply in_app_or in K as [K|[K|[]]]; [exact (L _ H WF _ _ K)|discriminate K].
  - destruct K as [K|K]; [destruct c; discriminate K|]. apply in_app_or in K as [K|[K|[]]]; [exact (L _ H WF _ _ K)|discriminate K].
  - destruct WF as [W1 W2]. destruct K as [K|K]; [destruct c; discriminate K|].
    apply in_app_or in K as [K|[K|K]]; [exact (L _ H W1 _ _ K)|discriminate K|].
    apply in_app_or in K as [K|[K|[]]]; [exact (L _ H0 W2 _ _ K)|discriminate K].
Qed.
Lemma flats_plugins l : all_wf l -> plugins_of plugin_ok (flat_map flat l).
Proof.
  induction l as [|i l IH]; intros WF; cbn [flat_map]; [intros p lo []|]. destruct WF as [W1 W2].
  intros p lo K. apply in_app_or in K as [K|K]; [exact (flat_plugins i W1 p lo K)|exact (IH W2 p lo K)].
Qed.

(** ** What a tag does to the stack *)
Definition names_ok (toks : list ltoken) : Prop := plugins_of (fun p => exists n, pf_name p = Some n /\ n <> lit "else" /\ n <> lit "end") toks.
Lemma flat_names i : well_formed i -> names_ok (flat i).
Proof.
  assert (L : forall l, Forall (fun i => well_formed i -> names_ok (flat i)) l -> all_wf l -> names_ok (flat_map flat l)).
  { intros l H. induction H as [|j l Hj Hl IH]; intros WF; cbn [flat_map]; [intros p lo []|]. destruct WF as [W1 W2].
    intros p lo K. apply in_app_or in K as [K|K]; [exact (Hj W1 p lo K)|exact (IH W2 p lo K)]. }
  induction i using item_induct; intros WF p0 lo K; cbn [flat] in K.
  - destruct K as [->|[]]. discriminate WF.
  - destruct K as [E|[]]. injection E as -> ->. exact (proj1 WF).
  - destruct K as [K|K]; [discriminate K|]. apply in_app_or in K as [K|[K|[]]]; [exact (L _ H WF _ _ K)|].
    unfold section_end in K. destruct c; discriminate K.
  - destruct K as [K|K]; [discriminate K|]. apply in_app_or in K as [K|[K|[]]]; [exact (L _ H WF _ _ K)|discriminate K].
  - destruct K as [K|K]; [destruct c; discriminate K|]. apply in_app_or in K as [K|[K|[]]]; [exact (L _ H WF _ _ K)|discriminate K].
  - destruct WF as [W1 W2]. destruct K as [K|K]; [destruct c; discriminate K|].
    apply in_app_or in K as [K|[K|K]]; [exact (L _ H W1 _ _ K)|discriminate K|].
    apply in_app_or in K as [K|[K|[]]]; [exact (L _ H0 W2 _ _ K)|discriminate K].
Qed.
Lemma flats_names l : all_wf l -> names_ok (flat_map flat l).
Proof.
  induction l as [|i l IH]; intros WF; cbn [flat_map]; [intros p lo []|]. destruct WF as [W1 W2].
  intros p lo K. apply in_app_or in K as [K|K]; [exact (flat_names i W1 p lo K)|exact (IH W2 p lo K)].
Qed.

Definition effect (t : ltoken) (s s' : scope) (f : frame) (r : list frame) : Prop :=
  match t_inner t with
  | TFun (FBegin label _) => s' = push_frame (new_frame (lit "begin:" ++ label)) s
  | TFun (FEnd label custom) =>
      exists g g' r', r = g :: r' /\ sc_stack s' = g' :: r' /\ fr_name g' = fr_name g /\ sc_idx s' = sc_idx s /\
        exists d, fr_name f = (if custom then lit "begin" else label) ++ c_colon :: d
  | TFun FElse => s' = s /\ starts_with (lit "if") (fr_name f) = true
  | TFun (FFor _) | TFun (FIf _ _ _) | TFun (FIfDefined _) => exists f', sc_stack s' = f' :: r /\ fr_name f' = fr_name f
  | _ => sc_idx s' = sc_idx s /\ exists f', sc_stack s' = f' :: r /\ fr_name f' = fr_name f
  end.
Lemma exec_effect w n t s s' f r : plugins_of plugin_ok (w_toks w) -> current w s = Some t -> sc_stack s = f :: r ->
  (sc_idx s <= length (w_toks w))%nat -> exec n w t s = Ok s' -> effect t s s' f r.
Proof.
  intros HP C HS HI E. destruct n as [|n]; [discriminate E|].
  assert (BL : forall g, t_inner t = TFun g -> block_fn g -> exists f', sc_stack s' = f' :: r /\ fr_name f' = fr_name f).
  { intros g T B. cbn [exec] in E. rewrite T in E.
    assert (IH := exec_ok False w HP ltac:(contradiction) ltac:(contradiction) n).
    assert (A := block_ok False w ltac:(contradiction) ltac:(contradiction) n t g s f r IH T B C HS HI ltac:(contradiction)).
    rewrite E in A. cbn in A. destruct A as ((f' & S' & P & _) & _). now exists f'. }
  assert (LF : is_leaf (t_inner t) = true -> sc_idx s' = sc_idx s /\ exists f', sc_stack s' = f' :: r /\ fr_name f' = fr_name f).
  { intros L. rewrite (leaf_exec n w t s f r L C HS) in E. destruct (leaf_effect _ _ _ _ _) as [[o new]|e|p|]; try discriminate E.
    injection E as <-. cbn. split; [reflexivity|]. eexists. split; reflexivity. }
  unfold effect. destruct t as [ti lo]; cbn [t_inner] in *. destruct ti as [x|g|v]; [now apply LF| |now apply LF].
  destruct g as [label custom|v fmt| |label custom|v k|ff|v|v file|label|v|c a b|p]; try (now apply LF); try (now apply (BL _ eq_refl)); cbn [exec t_inner exec_fn] in E.
  - now injection E as <-.
  - unfold with_current in E. rewrite C in E. unfold exec_else in E. rewrite HS in E.
    destruct (starts_with _ _) eqn:Q; [|discriminate E]. injection E as <-. now split.
  - unfold with_current in E. rewrite C in E. unfold exec_end in E. rewrite HS in E. unfold output in E. cbn [sc_stack set_stack] in E.
    destruct custom.
    + destruct (text_eqb (fr_name f) _) eqn:Q; [|discriminate E]. apply text_eqb_eq in Q. destruct r as [|g r]; [discriminate E|].
      cbn in E. injection E as <-. exists g, (add_out (fr_out f) g), r. cbn. repeat split. exists label. rewrite Q. reflexivity.
    + destruct (starts_with _ (fr_name f)) eqn:Q; [|discriminate E]. apply starts_with_spec in Q as [d Q]. destruct r as [|g r]; [discriminate E|].
      cbn in E. injection E as <-. exists g, (add_out (fr_out f) g), r. cbn. repeat split. exists d. rewrite Q. rewrite <- app_assoc. reflexivity.
  - unfold with_current in E. rewrite C in E. cbn [t_loc] in E. assert (P := HP p lo (current_in _ _ _ C) lo s ltac:(congruence)).
    rewrite E in P. destruct P as (P1 & _ & f1 & f2 & r' & E1 & E2 & G). split; [exact P1|]. exists f2. rewrite HS in E1.
    injection E1 as <- <-. split; [exact E2|apply G].
Qed.

(** ** Fewer open frames than open blocks *)
Definition loops (st : list text) : nat := length (filter (text_eqb (lit "for")) st).
Lemma loops_app a b : loops (a ++ b) = (loops a + loops b)%nat.
Proof. unfold loops. now rewrite filter_app, app_length. Qed.
Lemma loops_none st : ~ In (lit "for") st -> loops st = 0%nat.
Proof.
  intros H. unfold loops. induction st as [|k st IH]; [reflexivity|]. cbn [filter]. destruct (text_eqb (lit "for") k) eqn:Q.
  - apply text_eqb_eq in Q. destruct H. now left.
  - apply IH. intros K. apply H. now right.
Qed.
Lemma loops_cons k st : k <> lit "for" -> loops (k :: st) = loops st.
Proof. intros H. unfold loops. cbn [filter]. destruct (text_eqb (lit "for") k) eqn:Q; [|reflexivity]. apply text_eqb_eq in Q. congruence. Qed.
Lemma cmp_name_for c : cmp_name c <> lit "for".
Proof. destruct c; discriminate. Qed.
Definition sane (st : list text) : Prop := (loops st <= 1)%nat /\ Forall (fun k => ~ In c_colon k) st.
Lemma step_sane st t : sane st -> (forall f, t_inner t = TFun (FFor f) -> ~ In (lit "for") st) -> sane (step st t).
Proof.
  intros [S1 S2] H. unfold step. destruct (t_inner t) as [|g|] eqn:T; try now split. destruct g as [label custom|v fmt| |label custom|v k|ff|v|v file|label|v|c a b|p]; try now split.
  - split; [now rewrite loops_cons by discriminate|]. constructor; [|exact S2]. cbn. intuition discriminate.
  - destruct st as [|k st]; [now split|]. inversion S2; subst. split; [|assumption]. cbn [tl].
    change (k :: st) with ([k] ++ st) in S1. rewrite loops_app in S1. lia.
  - specialize (H _ eq_refl). split; [|constructor; [|exact S2]; cbn; intuition discriminate].
    change (lit "for" :: st) with ([lit "for"] ++ st). rewrite loops_app, (loops_none st H). cbn. lia.
  - split; [now rewrite loops_cons by discriminate|]. constructor; [|exact S2]. cbn. intuition discriminate.
  - split; [now rewrite loops_cons by apply cmp_name_for|]. constructor; [|exact S2]. destruct c; cbn; intuition discriminate.
Qed.

Lemma static_at a b : static (a ++ b) (length a) = fold_left step a [].
Proof. unfold static. rewrite firstn_app, firstn_all, Nat.sub_diag. cbn [firstn]. now rewrite app_nil_r. Qed.

Lemma colon_unique : forall a x b y, ~ In c_colon a -> ~ In c_colon b -> a ++ c_colon :: x = b ++ c_colon :: y -> a = b.
Proof.
  induction a as [|c a IH]; intros x b y NA NB E; destruct b as [|c' b]; cbn [app] in E.
  - reflexivity.
  - injection E as E _. destruct NB. left. now symmetry.
  - injection E as E _. destruct NA. now left.
  - injection E as -> E. f_equal. apply (IH x b y); [intros K; apply NA; now right|intros K; apply NB; now right|exact E].
Qed.

Section Deficit.
  Variable w : world.
  Hypothesis Hplug : plugins_of plugin_ok (w_toks w).
  Hypothesis Hnames : names_ok (w_toks w).
  Hypothesis Hgood : good [] (w_toks w).
  Let st_at := static (w_toks w).

  Lemma static_next i t : nth_error (w_toks w) i = Some t -> st_at (S i) = step (st_at i) t.
  Proof.
    intros N. unfold st_at. apply nth_error_split in N as (a & b & E & L). rewrite E. subst i.
    replace (S (length a)) with (length (a ++ [t])) by (rewrite app_length; cbn; lia).
    rewrite static_at. replace (a ++ t :: b) with ((a ++ [t]) ++ b) by now rewrite <- app_assoc.
    rewrite static_at, fold_left_app. reflexivity.
  Qed.
  Lemma good_at i t : nth_error (w_toks w) i = Some t ->
    match t_inner t with
    | TFun (FEnd label custom) => exists st', st_at i = (if custom then lit "begin" else label) :: st'
    | TFun (FFor _) => ~ In (lit "for") (st_at i)
    | _ => True
    end.
  Proof.
    intros N. apply nth_error_split in N as (a & b & E & L). assert (G := Hgood). rewrite E in G. apply good_app in G as [_ G].
    cbn [good] in G. destruct G as [G _]. unfold st_at. rewrite E. subst i.
    rewrite static_at. exact G.
  Qed.
  Lemma static_sane i : sane (st_at i).
  Proof.
    induction i as [|i IH]; [unfold st_at, static; cbn; split; [cbn; lia|constructor]|].
    destruct (nth_error (w_toks w) i) as [t|] eqn:N.
    - rewrite (static_next i t N). apply step_sane; [exact IH|]. intros f T. assert (G := good_at i t N). rewrite T in G. exact G.
    - apply nth_error_None in N. unfold st_at, static in *. rewrite firstn_all2 in * by lia. exact IH.
  Qed.

  Definition guard (Z : list text) (N : text) : Prop :=
    (Z = [] /\ ~ In c_colon N) \/ (exists Z' x, Z = lit "for" :: Z' /\ N = lit "for:" ++ x).
  Definition dfc (Z : list text) (N : text) (rest : list frame) (s : scope) : Prop :=
    exists X Y g, st_at (sc_idx s) = X ++ Z /\ sc_stack s = Y ++ g :: rest /\ fr_name g = N /\ (length Y < length X)%nat.

  Lemma next_nth s t s1 : next_token w s = Some (t, s1) -> nth_error (w_toks w) (sc_idx s) = Some t /\ s1 = set_idx (S (sc_idx s)) s /\
    current w s1 = Some t /\ (sc_idx s1 <= length (w_toks w))%nat.
  Proof.
    intros N. assert (A := next_some w s t s1 N). unfold next_token in N. destruct (nth_error _ _) eqn:E; [|discriminate N].
    injection N as -> _. destruct A as (A1 & A2 & A3). now repeat split.
  Qed.
  Lemma dfc_nonempty Z N rest s : dfc Z N rest s -> sc_stack s <> [].
  Proof. intros (X & Y & g & _ & E & _). rewrite E. now destruct Y. Qed.

  (** The frames above a block of height [h]: only sections. *)
  Definition section_frame (f : frame) : Prop := exists d, fr_name f = lit "begin:" ++ d.
  Definition level (h : nat) (st : list frame) : Prop :=
    exists B x r, st = B ++ x :: r /\ length r = h /\ Forall section_frame B.
  Lemma level_top h f f' r : fr_name f' = fr_name f -> level h (f :: r) -> level h (f' :: r).
  Proof.
    intros N (B & x & q & E & L & F). destruct B as [|b B]; cbn in E; injection E as -> ->.
    - exists [], f', q. now repeat split.
    - inversion F as [|? ? [d D] F2]; subst. exists (f' :: B), x, q. repeat split. constructor; [exists d; congruence|exact F2].
  Qed.
  Lemma level_step n h t s s1 s2 : next_token w s = Some (t, s1) -> level h (sc_stack s) -> exec n w t s1 = Ok s2 ->
    level h (sc_stack s2) \/ (length (sc_stack s2) <= h)%nat.
  Proof.
    intros NT L E. destruct (next_nth s t s1 NT) as (_ & -> & C & HI).
    destruct (sc_stack s) as [|f r] eqn:HS; [destruct L as (B & x & q & Q & _); destruct B; discriminate Q|].
    assert (A := exec_effect w n t _ s2 f r Hplug C HS HI E). unfold effect in A.
    assert (SM : (exists f', sc_stack s2 = f' :: r /\ fr_name f' = fr_name f) -> level h (sc_stack s2) \/ (length (sc_stack s2) <= h)%nat).
    { intros (f' & -> & N). left. now apply (level_top h f). }
    destruct (t_inner t) as [x|g|v]; [now apply SM| |now apply SM].
    destruct g as [label custom|v fmt| |label custom|v k|ff|v|v file|label|v|c a b|p]; try (now apply SM).
    - subst s2. left. destruct L as (B & x & q & Q & LL & F). cbn [push_frame sc_stack set_stack set_idx]. rewrite HS, Q.
      exists (new_frame (lit "begin:" ++ label) :: B), x, q. repeat split; [exact LL|]. constructor; [now exists label|exact F].
    - destruct A as [-> _]. left. cbn. now rewrite HS.
    - destruct A as (g & g' & r' & -> & S2 & N & _). rewrite S2. destruct L as (B & x & q & Q & LL & F).
      destruct B as [|b B]; cbn in Q; injection Q as -> Q; [right; subst q; cbn in *; lia|].
      left. apply (level_top h g); [exact N|]. exists B, x, q. rewrite Q. inversion F; subst. now repeat split.
  Qed.

  Section Loops.
    Variables (n : nat) (Z : list text) (N : text) (rest : list frame).
    Hypothesis IH : forall t s s1 s2, dfc Z N rest s -> next_token w s = Some (t, s1) -> exec n w t s1 = Ok s2 -> dfc Z N rest s2.

    Lemma block_dfc h eof k : forall s s', dfc Z N rest s -> run_block (exec n w) w h eof k s = Ok s' -> dfc Z N rest s'.
    Proof.
      induction k as [|k IHk]; intros s s' D E; cbn [run_block] in E.
      - destruct (Nat.leb _ _); [now injection E as <-|discriminate E].
      - destruct (Nat.leb _ _); [now injection E as <-|]. destruct (next_token w s) as [[t s1]|] eqn:NT; [|discriminate E].
        destruct (exec n w t s1) as [s2|e|p|] eqn:X; try discriminate E. cbn [bind] in E.
        exact (IHk s2 s' (IH t s s1 s2 D NT X) E).
    Qed.
    Lemma skip_dfc s t s1 : dfc Z N rest s -> next_token w s = Some (t, s1) ->
      (forall label custom, t_inner t <> TFun (FEnd label custom)) -> dfc Z N rest s1.
    Proof.
      clear IH n. intros (X & Y & g & E1 & E2 & E3 & E4) NT H. destruct (next_nth s t s1 NT) as (NE & -> & _ & _).
      assert (Q := static_next _ _ NE). cbn [sc_idx set_idx sc_stack]. unfold dfc. cbn [sc_idx set_idx sc_stack]. rewrite Q, E1. unfold step.
      destruct (t_inner t) as [x|f|v]; [now exists X, Y, g| |now exists X, Y, g].
      destruct f as [label custom|v fmt| |label custom|v k|ff|v|v file|label|v|c a b|p]; try (now exists X, Y, g).
      - exists (lit "begin" :: X), Y, g. repeat split; try assumption. cbn. lia.
      - now destruct (H label custom).
      - exists (lit "for" :: X), Y, g. repeat split; try assumption. cbn. lia.
      - exists (lit "ifdefined" :: X), Y, g. repeat split; try assumption. cbn. lia.
      - exists (cmp_name c :: X), Y, g. repeat split; try assumption. cbn. lia.
    Qed.
    Lemma fn_end t nm : In t (w_toks w) -> token_fn_name t = Ok nm -> is_name nm (lit "end") = true ->
      exists label custom, t_inner t = TFun (FEnd label custom).
    Proof.
      intros I0 E H. destruct t as [ti l]. unfold token_fn_name in E. cbn [t_inner] in *. destruct ti as [x|g|v]; try (injection E as <-; discriminate H).
      destruct g as [label custom|v fmt| |label custom|v k|ff|v|v file|label|v|c a b|p]; try (injection E as <-; try discriminate H; try (destruct c; discriminate H)); [now exists label, custom|].
      cbn in E. destruct (Hnames p l I0) as (m & P & _ & Q). rewrite P in E. injection E as <-. cbn in H. apply text_eqb_eq in H. contradiction.
    Qed.
    Lemma fn_else t nm : In t (w_toks w) -> token_fn_name t = Ok nm -> is_name nm (lit "else") = true -> t_inner t = TFun FElse.
    Proof.
      intros I0 E H. destruct t as [ti l]. unfold token_fn_name in E. cbn [t_inner] in *. destruct ti as [x|g|v]; try (injection E as <-; discriminate H).
      destruct g as [label custom|v fmt| |label custom|v k|ff|v|v file|label|v|c a b|p]; try (injection E as <-; try discriminate H; try (destruct c; discriminate H)); [reflexivity|].
      cbn in E. destruct (Hnames p l I0) as (m & P & Q & _). rewrite P in E. injection E as <-. cbn in H. apply text_eqb_eq in H. contradiction.
    Qed.
    Lemma end_name t label custom : t_inner t = TFun (FEnd label custom) -> token_fn_name t = Ok (Some (lit "end")).
    Proof. intros T. unfold token_fn_name. now rewrite T. Qed.

    Lemma cond_dfc h eof k : forall c s s', dfc Z N rest s -> level h (sc_stack s) \/ (length (sc_stack s) <= h)%nat ->
      (c = false -> (length (sc_stack s) <= S h)%nat) -> run_cond (exec n w) w h eof k c s = Ok s' -> dfc Z N rest s'.
    Proof.
      induction k as [|k IHk]; intros c s s' D L HC E; cbn [run_cond] in E.
      - destruct (Nat.leb _ _); [now injection E as <-|discriminate E].
      - destruct (Nat.leb_spec (length (sc_stack s)) h) as [LE|LE]; [now injection E as <-|].
        destruct L as [L|L]; [|lia].
        destruct (next_token w s) as [[t s1]|] eqn:NT; [|discriminate E].
        destruct (next_nth s t s1 NT) as (NE & S1 & C & HI). assert (I0 := nth_error_In _ _ NE).
        destruct (token_fn_name t) as [nm|e|p|] eqn:T; try discriminate E. cbn [bind] in E.
        destruct (c || _) eqn:Q.
        + destruct (exec n w t s1) as [s2|e|p|] eqn:X; try discriminate E. cbn [bind] in E.
          assert (D2 := IH t s s1 s2 D NT X). assert (L2 := level_step n h t s s1 s2 NT L X).
          apply (IHk _ s2 s' D2 L2) in E; [exact E|]. intros F.
          destruct (sc_stack s) as [|f r] eqn:HS; [cbn in LE; lia|].
          assert (A := exec_effect w n t s1 s2 f r Hplug C ltac:(rewrite S1; exact HS) HI X). unfold effect in A.
          destruct (is_name nm (lit "else")) eqn:El.
          * rewrite (fn_else t nm I0 T El) in A. destruct A as [-> A]. rewrite S1. cbn [sc_stack set_idx]. rewrite HS.
            destruct L as (B & x & q & Q2 & LL & FB). destruct B as [|b B]; cbn in Q2; injection Q2 as -> ->; [cbn; lia|].
            inversion FB as [|? ? [d Db] _]; subst. rewrite Db in A. discriminate A.
          * subst c. cbn [orb] in Q. apply andb_prop in Q as [Q1 Q2]. rewrite orb_false_r in Q1.
            destruct (fn_end t nm I0 T Q1) as (label & custom & TT). rewrite TT in A.
            destruct A as (g & g' & r' & -> & -> & _). specialize (HC eq_refl). cbn in HC |- *. lia.
        + apply orb_false_iff in Q as [-> Q]. specialize (HC eq_refl).
          assert (LN : length (sc_stack s1) = S h) by (rewrite S1; cbn [sc_stack set_idx]; lia).
          rewrite LN, Nat.eqb_refl, andb_true_r in Q. apply orb_false_iff in Q as [Q1 Q2].
          apply (IHk false s1 s') in E; [exact E| | |intros _; lia].
          * apply (skip_dfc s t s1 D NT). intros label custom TT. rewrite (end_name t label custom TT) in T. injection T as <-. discriminate Q1.
          * left. now rewrite S1.
    Qed.
    Lemma loop_dfc name way eof X : st_at way = lit "for" :: X ++ Z ->
      (way <= length (w_toks w))%nat ->
      forall vs s s' Y g, dfc Z N rest s -> sc_stack s = Y ++ g :: rest -> fr_name g = N -> (length Y < length X)%nat ->
      for_loop (exec n w) w name way eof vs s = Ok s' -> dfc Z N rest s'.
    Proof.
      intros HW WL. induction vs as [|v vs IHv]; intros s s' Y g D HS HN HL E; cbn [for_loop] in E; [now injection E as <-|].
      set (s1 := push_frame _ (set_idx way s)) in E.
      destruct (run_block _ _ _ _ _ _) as [s3|e|p|] eqn:R in E; try discriminate E. cbn [bind] in E.
      assert (D1 : dfc Z N rest s1).
      { exists (lit "for" :: X), (add_var name v (new_frame (lit "for:" ++ name)) :: Y), g. unfold s1. cbn. split; [exact HW|].
        rewrite HS. repeat split; [exact HN|]. lia. }
      assert (D3 := block_dfc _ _ _ _ _ D1 R).
      destruct (sc_stack s) as [|f r] eqn:S0; [destruct Y; discriminate HS|].
      assert (CL : exists f', sc_stack s3 = f' :: r /\ fr_name f' = fr_name f).
      { clear - R Hplug S0 WL. revert R. cbn [set_idx sc_stack]. rewrite S0. unfold s1. clear s1.
        set (sx := push_frame _ _). assert (O : over f r (sc_stack sx)).
        { exists [add_var name v (new_frame (lit "for:" ++ name))], f. cbn. rewrite S0. split; [reflexivity|apply printed_refl]. }
        clearbody sx. generalize (S (length (w_toks w))). intros k. revert sx O. clear S0.
        induction k as [|k IHk]; intros sx O R; cbn [run_block] in R.
        - destruct (Nat.leb_spec (length (sc_stack sx)) (length (f :: r))); [|discriminate R]. injection R as <-.
          destruct (over_done f r _ O H) as (f' & Q & P & _). now exists f'.
        - destruct (Nat.leb_spec (length (sc_stack sx)) (length (f :: r))).
          + injection R as <-. destruct (over_done f r _ O H) as (f' & Q & P & _). now exists f'.
          + destruct (next_token w sx) as [[t s1]|] eqn:NT; [|discriminate R].
            destruct (next_nth sx t s1 NT) as (_ & -> & C & HI).
            destruct (exec n w t _) as [s2|e|p|] eqn:X; try discriminate R. cbn [bind] in R. apply (IHk s2); [|exact R].
            assert (A := exec_ok False w Hplug ltac:(contradiction) ltac:(contradiction) n t _ C (over_nonempty _ _ _ O) HI ltac:(contradiction)).
            rewrite X in A. cbn in A. destruct A as (Sh & _). exact (over_shape f r _ _ O H Sh). }
      destruct CL as (f' & S3 & N3).
      destruct Y as [|y Y]; cbn in HS; injection HS as -> ->.
      - apply (IHv s3 s' [] f' D3); [exact S3|congruence|exact HL|exact E].
      - apply (IHv s3 s' (f' :: Y) g D3); [exact S3|exact HN|exact HL|exact E].
    Qed.
  End Loops.

  Lemma exec_dfc n : forall Z N rest, guard Z N -> forall t s s1 s2, dfc Z N rest s -> next_token w s = Some (t, s1) ->
    exec n w t s1 = Ok s2 -> dfc Z N rest s2.
  Proof.
    induction n as [|n IH]; intros Z N rest G t s s1 s2 D NT E; [discriminate E|].
    destruct (next_nth s t s1 NT) as (NE & S1 & C & HI). assert (Q := static_next _ _ NE). assert (GA := good_at _ _ NE).
    assert (D' := D). destruct D' as (X & Y & g & E1 & E2 & E3 & E4).
    destruct (sc_stack s) as [|f r] eqn:HS; [destruct Y; discriminate E2|].
    assert (A := exec_effect w (S n) t s1 s2 f r Hplug C ltac:(rewrite S1; exact HS) HI E). unfold effect in A.
    assert (SM : step (st_at (sc_idx s)) t = st_at (sc_idx s) -> sc_idx s2 = sc_idx s1 ->
      (exists f', sc_stack s2 = f' :: r /\ fr_name f' = fr_name f) -> dfc Z N rest s2).
    { intros QQ I2 (f' & S2 & N2). destruct Y as [|y Y]; cbn in E2; injection E2 as -> ->.
      - exists X, [], f'. rewrite I2, S1. cbn [sc_idx set_idx]. rewrite Q, QQ, E1, S2. repeat split; [congruence|exact E4].
      - exists X, (f' :: Y), g. rewrite I2, S1. cbn [sc_idx set_idx]. rewrite Q, QQ, E1, S2. repeat split; [exact E3|exact E4]. }
    destruct t as [ti lo]; cbn [t_inner] in *. unfold step in SM, Q; cbn [t_inner] in SM, Q.
    destruct ti as [x|fn|v]; [now apply SM| |now apply SM].
    destruct fn as [label custom|v fmt| |label custom|v k|ff|v|v file|label|v|c a b|p]; try (now apply SM).
    - subst s2 s1. exists (lit "begin" :: X), (new_frame (lit "begin:" ++ label) :: Y), g. cbn [push_frame set_stack set_idx sc_idx sc_stack].
      rewrite Q, E1, HS, E2. repeat split; [exact E3|]. cbn. lia.
    - destruct A as [-> _]. rewrite S1. exists X, Y, g. cbn [set_idx sc_idx sc_stack]. rewrite Q, E1, HS, E2. now repeat split.
    - destruct GA as [st' GA]. destruct A as (g0 & g' & r' & -> & S2 & N2 & I2 & d & DN).
      destruct X as [|kx X]; [cbn in E4; lia|]. rewrite E1 in GA. cbn [app] in GA. injection GA as -> GA.
      destruct Y as [|y Y]; cbn in E2; injection E2 as -> E2.
      + exfalso. destruct G as [[-> G]|(Z' & xx & -> & G)].
        * apply G. rewrite <- E3, DN. apply in_or_app. right. now left.
        * rewrite E3, G in DN. assert (SS := static_sane (sc_idx s)). rewrite E1 in SS. destruct SS as [SS1 SS2].
          cbn [app] in SS2. inversion SS2 as [|? ? NC _]; subst.
          change (lit "for:" ++ xx) with (lit "for" ++ c_colon :: xx) in DN.
          assert (KK : lit "for" = (if custom then lit "begin" else label)).
          { clear - DN NC. assert (NF : ~ In c_colon (lit "for")) by (cbn; intuition discriminate). exact (colon_unique (lit "for") xx _ d NF NC DN). }
          rewrite <- KK in SS1. change ((lit "for" :: X) ++ lit "for" :: Z') with ([lit "for"] ++ X ++ [lit "for"] ++ Z') in SS1.
          rewrite !loops_app in SS1. cbn in SS1. lia.
      + exists X. destruct Y as [|y2 Y]; cbn in E2; injection E2 as -> ->.
        * exists [], g'. rewrite I2, S1. cbn [sc_idx set_idx]. rewrite Q, E1, S2. cbn [tl app]. repeat split; [congruence|]. cbn in *. lia.
        * exists (g' :: Y), g. rewrite I2, S1. cbn [sc_idx set_idx]. rewrite Q, E1, S2. cbn [tl app]. repeat split; [exact E3|]. cbn in *. lia.
    - cbn [exec t_inner exec_fn] in E. unfold with_current in E. rewrite C in E. cbn [t_loc] in E.
      destruct (for_values w ff (sc_stack s1)) as [vs|e|p|]; cbn [map_err bind] in E; try discriminate E.
      assert (W1 : st_at (sc_idx s1) = lit "for" :: X ++ Z) by (rewrite S1; cbn [sc_idx set_idx]; rewrite Q, E1; reflexivity).
      assert (D1 : dfc Z N rest s1) by (apply (skip_dfc Z N rest s _ s1 D NT); intros; discriminate).
      refine (loop_dfc n Z N rest (IH Z N rest G) _ _ _ X W1 HI _ s1 s2 Y g D1 _ E3 E4 E).
      rewrite S1. cbn [sc_stack set_idx]. now rewrite HS.
    - cbn [exec t_inner exec_fn] in E. unfold with_current in E. rewrite C in E. cbn [t_loc] in E.
      apply (cond_dfc n Z N rest (IH Z N rest G)) in E; [exact E| | |].
      + subst s1. exists (lit "ifdefined" :: X), (new_frame (lit "ifdefined:" ++ v) :: Y), g. cbn [push_frame set_stack set_idx sc_idx sc_stack].
        rewrite Q, E1, HS, E2. repeat split; [exact E3|]. cbn. lia.
      + left. exists [], (new_frame (lit "ifdefined:" ++ v)), (sc_stack s1). now repeat split.
      + intros _. cbn. lia.
    - cbn [exec t_inner exec_fn] in E. unfold with_current in E. rewrite C in E. cbn [t_loc] in E.
      destruct (eval_input a _); cbn [ok_or bind] in E; try discriminate E. destruct (eval_input b _); cbn [ok_or bind] in E; try discriminate E.
      apply (cond_dfc n Z N rest (IH Z N rest G)) in E; [exact E| | |].
      + subst s1. exists (cmp_name c :: X), (new_frame (if_frame_name c a b) :: Y), g. cbn [push_frame set_stack set_idx sc_idx sc_stack].
        rewrite Q, E1, HS, E2. repeat split; [exact E3|]. cbn. lia.
      + left. exists [], (new_frame (if_frame_name c a b)), (sc_stack s1). now repeat split.
      + intros _. cbn. lia.
  Qed.
End Deficit.

(** ** From a proper state to one with too few frames *)
Lemma world_eta w : World (w_host w) (w_input w) (w_toks w) = w.
Proof. now destruct w. Qed.
Section Stray.
  Variable w : world.
  Hypothesis Hplug : plugins_of plugin_ok (w_toks w).
  Hypothesis Hnames : names_ok (w_toks w).
  Hypothesis Hgood : good [] (w_toks w).
  Let st_at := static (w_toks w).

  Lemma static_pre pre post : w_toks w = pre ++ post -> st_at (length pre) = fold_left step pre [].
  Proof. intros E. unfold st_at. rewrite E. apply static_at. Qed.

  Definition absorbs (D : nat -> scope -> xres scope) (h : nat) (Z : list text) (N : text) (rest : list frame) (G : scope -> Prop) : Prop :=
    forall k s s', dfc w Z N rest s -> level h (sc_stack s) \/ (length (sc_stack s) <= h)%nat -> D k s = Ok s' -> G s'.
  (** As many frames as blocks. *)
  Definition even (Z : list text) (N : text) (rest : list frame) (i : nat) (st : list frame) : Prop :=
    exists X Y g, st_at i = X ++ Z /\ st = Y ++ g :: rest /\ fr_name g = N /\ length Y = length X.

  Definition strays (i : item) : Prop :=
    forall n D h pre post s st f r k Z N rest G s',
    drives w n h D -> absorbs D h Z N rest G -> guard Z N -> depth i <= n -> w_toks w = pre ++ flat i ++ post -> sc_idx s = length pre ->
    sc_stack s = f :: r -> level h (f :: r) -> even Z N rest (length pre) (f :: r) ->
    rs_scopes st = map fr_vars (f :: r) -> rs_secs st = sc_secs s ->
    render false (w_host w) (w_input w) i st = ROdd -> D (count i + k) s = Ok s' -> G s'.
  Definition strays_all (l : list item) : Prop :=
    forall n D h pre post s st f r k Z N rest G s',
    drives w n h D -> absorbs D h Z N rest G -> guard Z N -> lmax depth l <= n -> w_toks w = pre ++ flat_map flat l ++ post -> sc_idx s = length pre ->
    sc_stack s = f :: r -> level h (f :: r) -> even Z N rest (length pre) (f :: r) ->
    rs_scopes st = map fr_vars (f :: r) -> rs_secs st = sc_secs s ->
    rseq (render false (w_host w) (w_input w)) l st = ROdd -> D (lsum count l + k) s = Ok s' -> G s'.

  Lemma level_length h st : level h st -> (length st > h)%nat.
  Proof. intros (B & x & r & -> & <- & _). rewrite app_length. cbn. lia. Qed.
  Lemma even_top Z N rest i f f' r : fr_name f' = fr_name f -> even Z N rest i (f :: r) -> even Z N rest i (f' :: r).
  Proof.
    intros E (X & Y & g & A & B & C & L). destruct Y as [|y Y]; cbn in B; injection B as -> ->.
    - exists X, [], f'. repeat split; try assumption. congruence.
    - exists X, (f' :: Y), g. now repeat split.
  Qed.
  Lemma even_moved Z N rest i j st : st_at j = st_at i -> even Z N rest i st -> even Z N rest j st.
  Proof. intros E (X & Y & g & A & B & C & L). exists X, Y, g. rewrite E. now repeat split. Qed.
  Lemma even_push Z N rest i j st x k : st_at j = k :: st_at i -> even Z N rest i st -> even Z N rest j (x :: st).
  Proof.
    intros E (X & Y & g & A & -> & C & L). exists (k :: X), (x :: Y), g. rewrite E, A. repeat split; [exact C|]. cbn. now rewrite L.
  Qed.
  Lemma even_odd Z N rest i s k : st_at (sc_idx s) = k :: st_at i -> even Z N rest i (sc_stack s) -> dfc w Z N rest s.
  Proof.
    intros E (X & Y & g & A & B & C & L). exists (k :: X), Y, g. fold st_at. rewrite E, A. repeat split; [exact B|exact C|]. cbn. lia.
  Qed.
  Lemma static_flat pre l post : all_wf l -> w_toks w = pre ++ flat_map flat l ++ post ->
    st_at (length (pre ++ flat_map flat l)) = st_at (length pre).
  Proof.
    intros WF E. rewrite (static_pre pre _ E). rewrite app_assoc in E. rewrite (static_pre _ _ E), fold_left_app.
    now rewrite flats_static.
  Qed.
  Lemma static_one pre t post : w_toks w = pre ++ t :: post -> st_at (S (length pre)) = step (st_at (length pre)) t.
  Proof.
    intros E. apply static_next. rewrite E, nth_error_app2 by lia. now rewrite Nat.sub_diag.
  Qed.

  Lemma strays_list l : all_wf l -> Forall (fun i => well_formed i -> strays i) l -> strays_all l.
  Proof.
    intros WF H. induction H as [|i l Hi Hl IH]; intros n D h pre post s st f r k Z N rest G s' HD HA HG HN HW HI HS HR HE HV HC R E.
    - discriminate R.
    - cbn in WF. destruct WF as [Wi Wl]. specialize (IH Wl). cbn [flat_map] in HW. rewrite lmax_cons in HN.
      rewrite lsum_cons, <- Nat.add_assoc in E. cbn [rseq] in R.
      assert (HW1 : w_toks w = pre ++ flat i ++ (flat_map flat l ++ post)) by (rewrite HW; now rewrite <- !app_assoc).
      assert (HRl : (length r >= h)%nat) by (assert (Q := level_length _ _ HR); cbn in Q; lia).
      assert (A := follows_item w i Wi n D h pre (flat_map flat l ++ post) s st f r (lsum count l + k) HD ltac:(lia)
        HW1 HI HS HRl HV HC).
      destruct (render false (w_host w) (w_input w) i st) as [o st'|e|p|] eqn:Ri; cbn [rthen agrees] in *; try discriminate R.
      + destruct A as (new & V & E0). rewrite E0 in E.
        fold (rseq (render false (w_host w) (w_input w))) in R.
        destruct (rseq (render false (w_host w) (w_input w)) l st') as [o' st2|e|p|] eqn:Rl; try discriminate R.
        assert (HW2 : w_toks w = (pre ++ flat i) ++ flat_map flat l ++ post) by (rewrite HW1; now rewrite <- app_assoc).
        apply (IH n D h (pre ++ flat i) post (Scope (length (pre ++ flat i)) (Frame (fr_name f) (fr_vars f ++ new) (fr_out f ++ o) :: r) (rs_secs st')) st' (Frame (fr_name f) (fr_vars f ++ new) (fr_out f ++ o)) r k Z N rest G s' HD HA HG ltac:(lia)
          HW2 eq_refl eq_refl) in E; [exact E| | |exact V|reflexivity|exact Rl].
        * now apply (level_top h f).
        * apply (even_top _ _ _ _ f); [reflexivity|]. apply (even_moved _ _ _ (length pre)); [|exact HE].
          assert (SF := static_flat pre [i] (flat_map flat l ++ post) (conj Wi I)). cbn [flat_map] in SF. rewrite app_nil_r in SF. now apply SF.
      + exact (Hi Wi n D h pre _ s st f r _ Z N rest G s' HD HA HG ltac:(lia) HW1 HI HS HR HE HV HC Ri E).
  Qed.

  Lemma strays_leaf t : well_formed (ILeaf t) -> strays (ILeaf t).
  Proof.
    intros WF n D h pre post s st f r k Z N rest G s' HD HA HG HN HW HI HS HR HE HV HC R E. cbn [count flat depth render] in *.
    destruct (next_at w s pre t post HW HI) as [NT C].
    destruct (leaf_name (ILeaf t) t WF eq_refl eq_refl) as (nm & E1 & E2 & _).
    cbn [Nat.add] in E. assert (Q := level_length _ _ HR).
    rewrite (HD k s t _ ltac:(rewrite HS; exact Q) NT (ex_intro _ nm (conj E1 E2))) in E.
    destruct n as [|n]; [lia|]. rewrite (leaf_exec n w t _ f r WF C HS) in E.
    cbn [sc_stack sc_secs set_idx] in E. rewrite HV, HC in R. rewrite HS in E.
    destruct (leaf_effect _ _ _ _ _) as [[o new]|e|p|]; cbn [reffect bind] in *; discriminate.
  Qed.
  Lemma strays_plugin l p beh : well_formed (IPlugin l p beh) -> strays (IPlugin l p beh).
  Proof.
    intros WF n D h pre post s st f r k Z N rest G s' HD HA HG HN HW HI HS HR HE HV HC R E. cbn [count flat depth render] in *.
    destruct (next_at w s pre _ post HW HI) as [NT C].
    destruct (leaf_name (IPlugin l p beh) _ WF eq_refl eq_refl) as (nm & E1 & E2 & _).
    cbn [Nat.add] in E. assert (Q := level_length _ _ HR).
    rewrite (HD k s _ _ ltac:(rewrite HS; exact Q) NT (ex_intro _ nm (conj E1 E2))) in E.
    destruct n as [|n]; [lia|]. cbn [exec t_inner exec_fn] in E. unfold with_current in E. rewrite C in E. cbn [t_loc] in E.
    destruct WF as [_ WF]. rewrite (WF l (set_idx (S (length pre)) s) f r HS) in E.
    cbn [sc_stack sc_secs set_idx] in E. rewrite HV, HC in R. rewrite HS in E.
    destruct (beh _ _ _) as [[o new]|e|q|]; cbn [reffect bind] in *; discriminate.
  Qed.
  Lemma strays_section l label custom body record l' : strays_all body -> strays (ISection l label custom body record l').
  Proof.
    intros HB n D h pre post s st f r k Z N rest G s' HD HA HG HN HW HI HS HR HE HV HC R E. cbn [count flat depth render] in *.
    set (tb := LTok (TFun (FBegin label custom)) l) in *. set (te := LTok (TFun (section_end label record)) l') in *.
    assert (W1 : w_toks w = pre ++ tb :: (flat_map flat body ++ [te]) ++ post) by exact HW.
    destruct (next_at w s pre tb _ W1 HI) as [NT C].
    assert (PB : plain_name tb) by now apply plain_fn with (lit "begin").
    assert (Q := level_length _ _ HR).
    change (2 + lsum count body + k) with (S (S (lsum count body + k))) in E.
    rewrite (HD (S (lsum count body + k)) s tb _ ltac:(rewrite HS; exact Q) NT PB) in E.
    destruct n as [|n]; [assert (X := lmax_pos depth body); lia|].
    change (exec (S n) w tb (set_idx (S (length pre)) s)) with
      (@Ok tbe scope (push_frame (new_frame (lit "begin:" ++ label)) (set_idx (S (length pre)) s))) in E. cbn [bind] in E.
    set (nf := new_frame (lit "begin:" ++ label)) in *. set (s1 := push_frame nf (set_idx (S (length pre)) s)) in *.
    replace (S (lsum count body + k)) with (lsum count body + S k) in E by lia.
    unfold rscope in R. destruct (rseq _ body _) as [o st'|e|p|] eqn:RB in R; try discriminate R.
    assert (LP : length (pre ++ [tb]) = S (length pre)) by (rewrite app_length; cbn; lia).
    apply (HB (S n) D h (pre ++ [tb]) ([te] ++ post) s1 (RState ([] :: rs_scopes st) (rs_secs st)) nf (f :: r) (S k) Z N rest G s'
      HD HA HG HN) in E; [exact E| | | | | | | |exact RB].
    - rewrite W1; now rewrite <- !app_assoc.
    - rewrite LP. reflexivity.
    - cbn. now rewrite HS.
    - destruct HR as (B & x & q & Q1 & Q2 & Q3). exists (nf :: B), x, q. rewrite Q1. repeat split; [exact Q2|]. constructor; [now exists label|exact Q3].
    - rewrite LP. apply (even_push _ _ _ (length pre) _ _ _ (lit "begin")); [|exact HE]. exact (static_one pre tb _ W1).
    - cbn. now rewrite HV.
    - exact HC.
  Qed.

  Lemma loop_strays n body l' pre post eof name : all_wf body -> strays_all body -> lmax depth body <= n ->
    w_toks w = pre ++ flat_map flat body ++ LTok (TFun (FEnd (lit "for") false)) l' :: post ->
    hd [] (st_at (length pre)) = lit "for" -> st_at (length pre) <> [] ->
    forall vs s st f r s', sc_stack s = f :: r -> rs_scopes st = map fr_vars (f :: r) -> rs_secs st = sc_secs s ->
    rseq (fun v => rscope [(name, v)] (rseq (render false (w_host w) (w_input w)) body)) vs st = ROdd ->
    for_loop (exec n w) w name (length pre) eof vs s <> Ok s'.
  Proof.
    intros WF HB HN HW HT HT2. set (te := LTok _ l') in *.
    induction vs as [|v vs IH]; intros s st f r s' HS HV HC R E; [discriminate R|]. cbn [rseq] in R.
    set (body_of := fun v => rscope [(name, v)] (rseq (render false (w_host w) (w_input w)) body)) in *.
    assert (LF := loop_goes w n body l' pre post eof name _ (goes_items w body (proj1 (wf_all_sane _ WF))) HN HW eq_refl [v] s st f r HS HV HC).
    change (rthen (body_of v st) (rseq body_of vs) = ROdd) in R. cbn [rseq] in LF. fold (body_of v) in LF.
    cbn [for_loop] in E, LF. set (nf := add_var name v (new_frame (lit "for:" ++ name))) in *.
    set (s1 := push_frame nf (set_idx (length pre) s)) in *.
    change (length (sc_stack (set_idx (length pre) s))) with (length (sc_stack s)) in *.
    destruct (body_of v st) as [o st'|e|p|] eqn:RB; cbn [rthen agrees] in *; try discriminate R.
    - destruct LF as [V LF]. destruct (run_block _ _ _ _ _ _) as [s3|e|p|]; cbn [bind] in *; try discriminate E.
      injection LF as ->. rewrite !app_nil_r in E.
      fold (rseq body_of) in R. destruct (rseq body_of vs st') as [o2 st2|e|p|] eqn:RV; try discriminate R.
      revert E. apply (IH _ st' (add_out o f) r); [reflexivity| |reflexivity|exact RV]. exact V.
    - clear LF. unfold body_of, rscope in RB. destruct (rseq _ body _) as [o st'|e|p|] eqn:RB' in RB; try discriminate RB.
      assert (K : exists k', S (length (w_toks w)) = lsum count body + k').
      { exists (S (length (w_toks w)) - lsum count body). assert (X := lsum_flat body). assert (Y : (length (flat_map flat body) <= length (w_toks w))%nat) by (rewrite HW, !app_length; lia). lia. }
      destruct K as (k' & K).
      destruct (run_block (exec n w) w (length (sc_stack s)) eof (S (length (w_toks w))) s1) as [s3|e|p|] eqn:RR; cbn [bind] in E; try discriminate E.
      rewrite K in RR. destruct (st_at (length pre)) as [|z Z'] eqn:SZ; [contradiction|]. cbn in HT. subst z.
      assert (GU : guard (lit "for" :: Z') (lit "for:" ++ name)) by (right; now exists Z', name).
      refine (HB n (run_block (exec n w) w (length (sc_stack s)) eof) (length (sc_stack s)) pre (te :: post) s1
        (RState ([(name, v)] :: rs_scopes st) (rs_secs st)) nf (sc_stack s) k' (lit "for" :: Z') (lit "for:" ++ name) (sc_stack s)
        (fun _ => False) s3 (drives_block _ _ _ _) _ GU HN HW eq_refl eq_refl _ _ _ HC RB' RR).
      + intros kk sx s'' D L RX.
        assert (D'' := block_dfc w n _ _ _ (exec_dfc w Hplug Hnames Hgood n _ _ (sc_stack s) GU) (length (sc_stack s)) eof kk sx s'' D RX).
        destruct D'' as (X & Y & g & _ & SS & _).
        assert (LE : (length (sc_stack s'') <= length (sc_stack s))%nat).
        { clear - RX. revert sx RX. induction kk as [|kk IHk]; intros sx RX; cbn [run_block] in RX.
          - destruct (Nat.leb_spec (length (sc_stack sx)) (length (sc_stack s))); [now injection RX as <-|discriminate RX].
          - destruct (Nat.leb_spec (length (sc_stack sx)) (length (sc_stack s))); [now injection RX as <-|].
            destruct (next_token w sx) as [[t sy]|]; [|discriminate RX]. destruct (exec n w t sy) as [sz|e|p|]; try discriminate RX.
            now apply (IHk sz). }
        rewrite SS, app_length in LE. cbn in LE. lia.
      + exists [], nf, (sc_stack s). now repeat split.
      + exists [], [], nf. unfold st_at in *. rewrite SZ. now repeat split.
      + cbn. now rewrite HV, HS.
  Qed.

  Lemma strays_for l ff body l' : all_wf body -> strays_all body -> strays (IFor l ff body l').
  Proof.
    intros WF HB n D h pre post s st f r k Z N rest G s' HD HA HG HN HW HI HS HR HE HV HC R E. cbn [count flat depth render] in *.
    set (tf := LTok (TFun (FFor ff)) l) in *. set (te := LTok (TFun (FEnd (lit "for") false)) l') in *.
    assert (W1 : w_toks w = pre ++ tf :: (flat_map flat body ++ [te]) ++ post) by exact HW.
    destruct (next_at w s pre tf _ W1 HI) as [NT C]. assert (Q := level_length _ _ HR).
    assert (ST := static_one pre tf _ W1). change (step (st_at (length pre)) tf) with (lit "for" :: st_at (length pre)) in ST.
    cbn [Nat.add] in E. rewrite (HD k s tf _ ltac:(rewrite HS; exact Q) NT ltac:(now apply plain_fn with (lit "for"))) in E.
    destruct n as [|n]; [lia|]. cbn [exec] in E. change (t_inner tf) with (TFun (FFor ff)) in E. cbn [exec_fn] in E.
    unfold with_current in E. rewrite C in E. change (t_loc tf) with l in E.
    rewrite HV, (for_values_vars (w_host w) (w_input w) (w_toks w) ff (f :: r)) in R. rewrite <- HS in R.
    rewrite world_eta in R.
    cbn [sc_stack set_idx sc_idx] in E.
    destruct (for_values w ff (sc_stack s)) as [vs|e|p|]; cbn [map_err bind] in E; try discriminate R; try discriminate E.
    destruct (select ff vs) as [|v vs'].
    - cbn [for_loop bind] in E. apply (HA k _ s') in E; [exact E| |left; cbn; now rewrite HS].
      apply (even_odd Z N rest (length pre) _ (lit "for")); [exact ST|]. cbn. now rewrite HS.
    - destruct (for_loop (exec n w) w (ff_var ff) (S (length pre)) (tb l XE_UnexpectedEndOfFile) (v :: vs') (set_idx (S (length pre)) s)) as [s2|e|p|] eqn:FL;
        cbn [bind] in E; try discriminate E. exfalso. revert FL.
      assert (LP : length (pre ++ [tf]) = S (length pre)) by (rewrite app_length; cbn; lia). rewrite <- LP in ST |- *.
      apply (loop_strays n body l' (pre ++ [tf]) post (tb l XE_UnexpectedEndOfFile) (ff_var ff) WF HB ltac:(lia)
        ltac:(rewrite W1; now rewrite <- !app_assoc) ltac:(rewrite ST; reflexivity) ltac:(rewrite ST; discriminate)
        (v :: vs') (set_idx (length (pre ++ [tf])) s) st f r s2 HS HV HC R).
  Qed.

  (** Skipping a branch that contains a block. *)
  Lemma hidden_block n eof h l : existsb is_block l = true -> all_wf l ->
    forall pre post s k s' Z N rest, guard Z N -> w_toks w = pre ++ flat_map flat l ++ post -> sc_idx s = length pre ->
    length (sc_stack s) = S h -> level h (sc_stack s) -> even Z N rest (length pre) (sc_stack s) ->
    run_cond (exec n w) w h eof k false s = Ok s' -> dfc w Z N rest s'.
  Proof.
    induction l as [|i l IH]; intros HB WF pre post s k s' Z N rest HG HW HI HL HR HE E; [discriminate HB|].
    cbn [existsb] in HB. destruct WF as [Wi Wl]. cbn [flat_map] in HW.
    destruct k as [|k]; [cbn [run_cond] in E; destruct (Nat.leb_spec (length (sc_stack s)) h); [lia|discriminate E]|].
    destruct (is_block i) eqn:B.
    - assert (O : exists t tl nm kk, flat i = t :: tl /\ token_fn_name t = Ok nm /\ is_name nm (lit "end") = false /\ is_name nm (lit "else") = false /\
        (forall st, step st t = kk :: st)).
      { destruct i as [t|l0 p beh|l0 a b body c l'|l0 f body l'|l0 c yes l'|l0 c yes le no l']; try discriminate B; cbn [flat].
        - now exists (LTok (TFun (FBegin a b)) l0), (flat_map flat body ++ [LTok (TFun (section_end a c)) l']), (Some (lit "begin")), (lit "begin").
        - now exists (LTok (TFun (FFor f)) l0), (flat_map flat body ++ [LTok (TFun (FEnd (lit "for") false)) l']), (Some (lit "for")), (lit "for").
        - eexists _, _, (Some (test_name c)), (test_name c). split; [reflexivity|]. destruct c as [v|c a b]; [now repeat split|].
          cbn [test_fn test_name]. split; [reflexivity|]. destruct c; now repeat split.
        - eexists _, _, (Some (test_name c)), (test_name c). split; [reflexivity|]. destruct c as [v|c a b]; [now repeat split|].
          cbn [test_fn test_name]. split; [reflexivity|]. destruct c; now repeat split. }
      destruct O as (t & tl0 & nm & kk & O1 & O2 & O3 & O4 & O5). rewrite O1 in HW.
      change (((t :: tl0) ++ flat_map flat l) ++ post) with (t :: (tl0 ++ flat_map flat l) ++ post) in HW.
      destruct (next_at w s pre t _ HW HI) as [NT _]. cbn [run_cond] in E.
      destruct (Nat.leb_spec (length (sc_stack s)) h); [lia|]. rewrite NT, O2 in E. cbn [bind orb] in E. rewrite O3, O4 in E. cbn [orb andb] in E.
      refine (cond_dfc w Hplug Hnames n Z N rest (exec_dfc w Hplug Hnames Hgood n Z N rest HG) h eof k false (set_idx (S (length pre)) s) s' _ (or_introl HR) _ E).
      + apply (even_odd Z N rest (length pre) _ kk); [|exact HE]. cbn [sc_idx set_idx]. rewrite (static_one pre t _ HW). apply O5.
      + intros _. cbn [sc_stack set_idx]. lia.
    - cbn [orb] in HB. destruct (leaf_flat i B) as [t Ft]. rewrite Ft in HW. cbn [app] in HW.
      destruct (leaf_name i t Wi B Ft) as (nm & E1 & N1 & N2).
      destruct (next_at w s pre t _ HW HI) as [NT _]. cbn [run_cond] in E.
      destruct (Nat.leb_spec (length (sc_stack s)) h); [lia|]. rewrite NT, E1 in E. cbn [bind orb] in E. rewrite N1, N2 in E. cbn [orb andb] in E.
      assert (LP : length (pre ++ [t]) = S (length pre)) by (rewrite app_length; cbn; lia).
      refine (IH HB Wl (pre ++ [t]) post (set_idx (S (length pre)) s) k s' Z N rest HG _ _ HL HR _ E); [rewrite HW; now rewrite <- app_assoc|now rewrite LP|].
      apply (even_moved _ _ _ (length pre)); [|exact HE].
      assert (SF := static_flat pre [i] (flat_map flat l ++ post) (conj Wi I)). cbn [flat_map] in SF. rewrite app_nil_r, Ft in SF. apply SF. exact HW.
  Qed.

  Lemma absorbs_cond n h eof Z N rest : guard Z N ->
    absorbs (fun k => run_cond (exec n w) w h eof k true) h Z N rest (dfc w Z N rest).
  Proof.
    intros HG k s s' D L E.
    exact (cond_dfc w Hplug Hnames n Z N rest (exec_dfc w Hplug Hnames Hgood n Z N rest HG) h eof k true s s' D L ltac:(discriminate) E).
  Qed.
  (** A conditional whose result has too few frames. *)
  Lemma cond_strays n D h c l pre post s f r k Z N rest (G : scope -> Prop) s' :
    drives w (S n) h D -> absorbs D h Z N rest G -> w_toks w = pre ++ LTok (TFun (test_fn c)) l :: post -> sc_idx s = length pre ->
    sc_stack s = f :: r -> level h (f :: r) -> 
    (forall b s2, holds c (map fr_vars (f :: r)) = Ok b ->
       run_cond (exec n w) w (length (f :: r)) (tb l XE_UnexpectedEndOfFile) (S (length (w_toks w))) b
         (push_frame (new_frame (cond_frame c)) (set_idx (S (length pre)) s)) = Ok s2 -> dfc w Z N rest s2) ->
    D (S k) s = Ok s' -> G s'.
  Proof.
    intros HD HA HW HI HS HR H E. set (ti := LTok (TFun (test_fn c)) l) in *.
    destruct (next_at w s pre ti _ HW HI) as [NT C]. assert (Q := level_length _ _ HR).
    rewrite (HD k s ti _ ltac:(rewrite HS; exact Q) NT ltac:(apply test_plain)) in E.
    destruct (exec (S n) w ti (set_idx (S (length pre)) s)) as [s2|e|p|] eqn:X; cbn [bind] in E; try discriminate E.
    assert (Q2 := next_nth w s ti _ NT). destruct Q2 as (_ & _ & _ & HI2).
    assert (EF := exec_effect w (S n) ti _ s2 f r Hplug C HS HI2 X).
    assert (EF' : exists f', sc_stack s2 = f' :: r /\ fr_name f' = fr_name f) by (destruct c as [v|c a b]; exact EF). clear EF.
    unfold ti in X, C. rewrite (cond_enter n w l c _ f r C HS) in X.
    destruct (holds c (map fr_vars (f :: r))) as [b|e|p|] eqn:HH; try discriminate X.
    apply (HA k s2 s') in E; [exact E|exact (H b s2 eq_refl X)|]. left. destruct EF' as (f' & -> & N2). now apply (level_top h f).
  Qed.

  Lemma strays_if l c yes l' : all_wf yes -> strays_all yes -> strays (IIf l c yes l').
  Proof.
    intros WF HB n D h pre post s st f r k Z N rest G s' HD HA HG HN HW HI HS HR HE HV HC R E. cbn [count flat depth render] in *.
    set (te := LTok (TFun (FEnd (test_name c) false)) l') in *.
    assert (W1 : w_toks w = pre ++ LTok (TFun (test_fn c)) l :: (flat_map flat yes ++ [te]) ++ post) by exact HW.
    destruct n as [|n]; [lia|].
    refine (cond_strays n D h c l pre _ s f r k Z N rest G s' HD HA W1 HI HS HR _ E). intros b s2 HH X.
    rewrite HV, HH in R. set (ti := LTok (TFun (test_fn c)) l) in *.
    assert (LP : length (pre ++ [ti]) = S (length pre)) by (rewrite app_length; cbn; lia).
    assert (W2 : w_toks w = (pre ++ [ti]) ++ flat_map flat yes ++ te :: post) by (rewrite W1; now rewrite <- !app_assoc).
    set (nf := new_frame (cond_frame c)) in *.
    assert (EV : even Z N rest (length (pre ++ [ti])) (nf :: f :: r)).
    { rewrite LP. apply (even_push _ _ _ (length pre) _ _ _ (test_name c)); [|exact HE]. rewrite (static_one pre ti _ W1). apply step_test. }
    assert (LV : level (length (f :: r)) (nf :: f :: r)) by (exists [], nf, (f :: r); now repeat split).
    destruct b.
    - unfold rscope in R. destruct (rseq _ yes _) as [o st'|e|p|] eqn:RY in R; try discriminate R.
      assert (K : exists k', S (length (w_toks w)) = lsum count yes + k').
      { exists (S (length (w_toks w)) - lsum count yes). assert (Q := lsum_flat yes).
        assert (Y : (length (flat_map flat yes) <= length (w_toks w))%nat) by (rewrite W2, !app_length; lia). lia. }
      destruct K as (k' & K). rewrite K in X.
      refine (HB n _ (length (f :: r)) (pre ++ [ti]) (te :: post) (push_frame nf (set_idx (S (length pre)) s)) (RState ([] :: rs_scopes st) (rs_secs st)) nf (f :: r) k' Z N rest
        (dfc w Z N rest) s2 (drives_cond w n (length (f :: r)) (tb l XE_UnexpectedEndOfFile)) (absorbs_cond n _ _ Z N rest HG) HG ltac:(lia) W2 _ _ LV EV _ HC RY X).
      + now rewrite LP.
      + cbn. now rewrite HS.
      + cbn [rs_scopes]. now rewrite HV.
    - cbn [negb andb] in R. destruct (existsb is_block yes) eqn:B; [|discriminate R].
      refine (hidden_block n _ _ yes B WF (pre ++ [ti]) (te :: post) _ _ s2 Z N rest HG W2 _ _ _ _ X).
      + now rewrite LP.
      + cbn. now rewrite HS.
      + cbn [push_frame set_stack set_idx sc_stack]. rewrite HS. exact LV.
      + cbn [push_frame set_stack set_idx sc_stack]. rewrite HS. exact EV.
  Qed.

  Lemma strays_ifelse l c yes le no l' : all_wf yes -> all_wf no -> strays_all yes -> strays_all no -> strays (IIfElse l c yes le no l').
  Proof.
    intros WY WN HY HNo n D h pre post s st f r k Z N rest G s' HD HA HG HN HW HI HS HR HE HV HC R E. cbn [count flat depth render] in *.
    set (te := LTok (TFun (FEnd (test_name c) false)) l') in *. set (tl := LTok (TFun FElse) le) in *.
    assert (W1 : w_toks w = pre ++ LTok (TFun (test_fn c)) l :: flat_map flat yes ++ tl :: flat_map flat no ++ te :: post).
    { rewrite HW. cbn [app]. repeat (rewrite <- !app_assoc; cbn [app]). reflexivity. }
    destruct n as [|n]; [lia|].
    refine (cond_strays n D h c l pre _ s f r k Z N rest G s' HD HA W1 HI HS HR _ E). intros b s2 HH X.
    rewrite HV, HH in R. set (ti := LTok (TFun (test_fn c)) l) in *.
    assert (LP : length (pre ++ [ti]) = S (length pre)) by (rewrite app_length; cbn; lia).
    assert (W2 : w_toks w = (pre ++ [ti]) ++ flat_map flat yes ++ tl :: flat_map flat no ++ te :: post) by (rewrite W1; now rewrite <- !app_assoc).
    assert (W3 : w_toks w = ((pre ++ [ti]) ++ flat_map flat yes ++ [tl]) ++ flat_map flat no ++ te :: post).
    { rewrite W2. repeat (rewrite <- !app_assoc; cbn [app]). reflexivity. }
    assert (W5 : w_toks w = ((pre ++ [ti]) ++ flat_map flat yes) ++ tl :: flat_map flat no ++ te :: post).
    { rewrite W2. repeat (rewrite <- !app_assoc; cbn [app]). reflexivity. }
    assert (LE : S (length ((pre ++ [ti]) ++ flat_map flat yes)) = length ((pre ++ [ti]) ++ flat_map flat yes ++ [tl])).
    { rewrite !app_length. cbn. lia. }
    assert (Cy := lsum_flat yes). assert (Cn := lsum_flat no).
    assert (LT : (length (w_toks w) >= 2 + length (flat_map flat yes) + length (flat_map flat no))%nat).
    { rewrite W2. rewrite !app_length. cbn. rewrite !app_length. cbn. lia. }
    set (nf := new_frame (cond_frame c)) in *.
    assert (EV : even Z N rest (length (pre ++ [ti])) (nf :: f :: r)).
    { rewrite LP. apply (even_push _ _ _ (length pre) _ _ _ (test_name c)); [|exact HE]. rewrite (static_one pre ti _ W1). apply step_test. }
    assert (LV : level (length (f :: r)) (nf :: f :: r)) by (exists [], nf, (f :: r); now repeat split).
    assert (SE : st_at (length ((pre ++ [ti]) ++ flat_map flat yes ++ [tl])) = st_at (length (pre ++ [ti]))).
    { rewrite <- LE, (static_one _ tl _ W5). change (step ?x tl) with x. apply (static_flat _ _ _ WY W2). }
    destruct n as [|n]; [assert (Q := lmax_pos depth yes); lia|].
    destruct b.
    - assert (K : exists k', S (length (w_toks w)) = lsum count yes + S k').
      { exists (length (w_toks w) - lsum count yes). lia. }
      destruct K as (k' & K). rewrite K in X.
      assert (A := branch_taken w (S n) c yes (pre ++ [ti]) (tl :: flat_map flat no ++ te :: post) (push_frame nf (set_idx (S (length pre)) s))
        nf f r st (S k') (goes_items w yes (proj1 (wf_all_sane _ WY))) (proj2 (wf_all_sane _ WY)) ltac:(lia) W2 ltac:(cbn; rewrite app_length; cbn; lia) ltac:(cbn; now rewrite HS) eq_refl HV HC (tb l XE_UnexpectedEndOfFile)).
      unfold rscope in R, A. destruct (rseq _ yes _) as [o st'|e|p|] eqn:RY in R, A; cbn [rthen] in R; try discriminate R.
      + cbn [agrees] in A. destruct A as (_ & y & Y1 & _ & A). rewrite A in X. clear A.
        cbn [negb andb] in R. destruct (existsb is_block no) eqn:B; [|discriminate R]. cbn [rs_secs] in X.
        rewrite (cond_else w n _ ((pre ++ [ti]) ++ flat_map flat yes) le c _ (Scope (length ((pre ++ [ti]) ++ flat_map flat yes)) (y :: f :: r) (rs_secs st')) y (f :: r) true _ W5 eq_refl eq_refl Y1) in X.
        cbn [negb] in X.
        refine (hidden_block (S n) _ _ no B WN ((pre ++ [ti]) ++ flat_map flat yes ++ [tl]) (te :: post) _ _ s2 Z N rest HG W3 _ _ _ _ X).
        * exact LE.
        * reflexivity.
        * exists [], y, (f :: r). now repeat split.
        * apply (even_moved _ _ _ (length (pre ++ [ti]))); [exact SE|]. cbn [sc_stack set_idx]. apply (even_top _ _ _ _ nf); [exact Y1|exact EV].
      + refine (HY (S n) _ (length (f :: r)) (pre ++ [ti]) (tl :: flat_map flat no ++ te :: post) (push_frame nf (set_idx (S (length pre)) s)) (RState ([] :: rs_scopes st) (rs_secs st)) nf (f :: r) (S k') Z N rest
          (dfc w Z N rest) s2 (drives_cond w (S n) (length (f :: r)) (tb l XE_UnexpectedEndOfFile)) (absorbs_cond (S n) _ _ Z N rest HG) HG ltac:(lia) W2 _ _ LV EV _ HC RY X).
        * now rewrite LP.
        * cbn. now rewrite HS.
        * cbn [rs_scopes]. now rewrite HV.
    - cbn [negb andb] in R. destruct (existsb is_block yes) eqn:B.
      + refine (hidden_block (S n) _ _ yes B WY (pre ++ [ti]) (tl :: flat_map flat no ++ te :: post) _ _ s2 Z N rest HG W2 _ _ _ _ X).
        * now rewrite LP.
        * cbn. now rewrite HS.
        * cbn [push_frame set_stack set_idx sc_stack]. rewrite HS. exact LV.
        * cbn [push_frame set_stack set_idx sc_stack]. rewrite HS. exact EV.
      + unfold rscope in R. destruct (rseq _ no _) as [o st'|e|p|] eqn:RN in R; try discriminate R.
        assert (K : exists k', S (length (w_toks w)) = length (flat_map flat yes) + S (lsum count no + k')).
        { exists (length (w_toks w) - length (flat_map flat yes) - lsum count no). lia. }
        destruct K as (k' & K). rewrite K in X.
        rewrite (skip_leaves w (S n) _ _ yes B (proj1 (wf_all_sane _ WY)) (proj2 (wf_all_sane _ WY)) (pre ++ [ti]) (tl :: flat_map flat no ++ te :: post) (push_frame nf (set_idx (S (length pre)) s)) _ W2 ltac:(cbn; rewrite app_length; cbn; lia) ltac:(cbn; now rewrite HS)) in X.
        rewrite (cond_else w n _ ((pre ++ [ti]) ++ flat_map flat yes) le c _ (set_idx (length ((pre ++ [ti]) ++ flat_map flat yes)) (push_frame nf (set_idx (S (length pre)) s))) nf (f :: r) false _ W5 eq_refl ltac:(cbn; now rewrite HS) eq_refl) in X.
        cbn [negb] in X. rewrite LE in X. set (s3 := set_idx (length ((pre ++ [ti]) ++ flat_map flat yes ++ [tl])) _) in X.
        refine (HNo (S n) _ (length (f :: r)) ((pre ++ [ti]) ++ flat_map flat yes ++ [tl]) (te :: post) s3 (RState ([] :: rs_scopes st) (rs_secs st)) nf (f :: r) k' Z N rest
          (dfc w Z N rest) s2 (drives_cond w (S n) (length (f :: r)) (tb l XE_UnexpectedEndOfFile)) (absorbs_cond (S n) _ _ Z N rest HG) HG ltac:(lia) W3 eq_refl _ LV _ _ HC RN X).
        * cbn. now rewrite HS.
        * apply (even_moved _ _ _ (length (pre ++ [ti]))); [exact SE|exact EV].
        * cbn [rs_scopes]. now rewrite HV.
  Qed.

  Lemma strays_item i : well_formed i -> strays i.
  Proof.
    induction i using item_induct; intros WF.
    - now apply strays_leaf.
    - now apply strays_plugin.
    - apply strays_section. now apply strays_list.
    - apply strays_for; [exact WF|now apply strays_list].
    - apply strays_if; [exact WF|now apply strays_list].
    - destruct WF as [W1 W2]. apply strays_ifelse; [exact W1|exact W2|now apply strays_list|now apply strays_list].
  Qed.
  Lemma strays_items l : all_wf l -> strays_all l.
  Proof. intros WF. apply strays_list; [exact WF|]. apply Forall_forall. intros i _. apply strays_item. Qed.
End Stray.

(** ** A page that renders *)
Lemma odd_fails h site l f r secs s' : all_wf l -> forallb loops_apart l = true -> ~ In c_colon (fr_name f) ->
  render_all false h site l (RState (map fr_vars (f :: r)) secs) = ROdd ->
  run (World h site (flat_map flat l)) (Scope 0 (f :: r) secs) <> Ok s'.
Proof.
  intros WF LA NC R E. set (w := World h site (flat_map flat l)) in *.
  assert (HP : plugins_of plugin_ok (w_toks w)) by now apply flats_plugins.
  assert (HNm : names_ok (w_toks w)) by now apply flats_names.
  assert (HGd : good [] (w_toks w)) by (apply flats_good; [exact WF|split; [exact LA|intros []]]).
  assert (GU : guard [] (fr_name f)) by (left; now split).
  unfold run in E.
  assert (K : exists k', S (length (w_toks w)) = lsum count l + k').
  { exists (S (length (w_toks w)) - lsum count l). assert (X := lsum_flat l). cbn [w w_toks]. lia. }
  destruct K as (k' & K).
  refine (strays_items w HP HNm HGd l WF (S (length (w_toks w))) (fun k => run_all k (S (length (w_toks w))) w) (length r) [] []
    (Scope 0 (f :: r) secs) (RState (map fr_vars (f :: r)) secs) f r k' [] (fr_name f) r (fun _ => False) s' _ _ GU _ _ eq_refl eq_refl _ _ eq_refl eq_refl R _).
  - intros kk s t s1 _ NT _. cbn. now rewrite NT.
  - intros kk s s'' D _ RX. clear - D RX HP HNm HGd GU WF. 
    assert (NX := exec_dfc w HP HNm HGd (S (length (w_toks w))) [] (fr_name f) r GU).
    revert s D RX. induction kk as [|kk IH]; intros s D RX; cbn [run_all] in RX; [discriminate RX|].
    destruct (next_token w s) as [[t s1]|] eqn:NT.
    + destruct (exec _ w t s1) as [s2|e|p|] eqn:X; cbn [bind] in RX; try discriminate RX.
      apply (IH s2 (NX t s s1 s2 D NT X) RX).
    + destruct D as (X & Y & g & E1 & _ & _ & L). unfold next_token in NT. destruct (nth_error _ _) eqn:NE; [discriminate NT|].
      apply nth_error_None in NE. unfold static in E1. rewrite firstn_all2 in E1 by exact NE. cbn [w w_toks] in E1.
      rewrite flats_static in E1 by exact WF. rewrite app_nil_r in E1. subst X. cbn in L. lia.
  - exact (lmax_flat l).
  - cbn. now rewrite app_nil_r.
  - exists [], f, r. now repeat split.
  - exists [], [], f. unfold static. cbn. now repeat split.
  - cbn beta. now rewrite <- K.
Qed.
Lemma sound h site l f r secs s : Forall well_formed l -> forallb loops_apart l = true -> ~ In c_colon (fr_name f) ->
  run (World h site (flat_map flat l)) (Scope 0 (f :: r) secs) = Ok s ->
  exists o st new, render_all true h site l (RState (map fr_vars (f :: r)) secs) = RDone o st /\
    rs_scopes st = (fr_vars f ++ new) :: map fr_vars r /\
    s = Scope (length (flat_map flat l)) (Frame (fr_name f) (fr_vars f ++ new) (fr_out f ++ o) :: r) (rs_secs st).
Proof.
  intros WF LA NC E. assert (W := proj2 (all_wf_forall l) WF).
  assert (NO : render_all false h site l (RState (map fr_vars (f :: r)) secs) <> ROdd).
  { intros R. exact (odd_fails h site l f r secs s W LA NC R E). }
  assert (A := block_structure h site l f r secs (wf_forall_sane l WF) NO). cbv zeta in A. rewrite E in A.
  destruct (render_all true h site l _) as [o st|e|p|]; try discriminate A; [|contradiction].
  destruct A as (new & V & Q). exists o, st, new. injection Q as ->. now repeat split.
Qed.

Lemma rseq_app {A} (F : A -> rstate -> rres) a b st :
  rseq F (a ++ b) st = rthen (rseq F a st) (rseq F b).
Proof.
  revert st. induction a as [|i a IH]; intros st; cbn [rseq app].
  - cbn [rthen]. destruct (rseq F b st) as [o st'|e|p|]; reflexivity.
  - fold (rseq F). destruct (F i st) as [o st'|e|p|]; cbn [rthen]; try reflexivity. rewrite IH.
    destruct (rseq F a st') as [o2 st2|e|p|]; cbn [rthen]; try reflexivity.
    destruct (rseq F b st2) as [o3 st3|e|p|]; try reflexivity. now rewrite app_assoc.
Qed.
Lemma odd_after h site a i b st o st' : render_all false h site a st = RDone o st' -> render false h site i st' = ROdd ->
  render_all false h site (a ++ i :: b) st = ROdd.
Proof. intros R1 R2. unfold render_all in *. rewrite rseq_app, R1. cbn [rthen rseq]. now rewrite R2. Qed.

Lemma empty_fails h site a l f body l' b fr r secs o st vs s : Forall well_formed (a ++ IFor l f body l' :: b) ->
  forallb loops_apart (a ++ IFor l f body l' :: b) = true -> ~ In c_colon (fr_name fr) ->
  render_all false h site a (RState (map fr_vars (fr :: r)) secs) = RDone o st ->
  loop_source site f (frames (rs_scopes st)) vs -> visits f vs [] ->
  run (World h site (flat_map flat (a ++ IFor l f body l' :: b))) (Scope 0 (fr :: r) secs) <> Ok s.
Proof.
  intros WF LA NC R SRC V. apply odd_fails; [now apply all_wf_forall|exact LA|exact NC|].
  apply (odd_after _ _ _ _ _ _ o st R). cbn [render].
  rewrite (source_values h site [] f _ vs SRC).
  now rewrite (visits_unique f vs _ _ (select_visits f vs) V).
Qed.
Lemma hidden_fails h site a i b fr r secs o st s : Forall well_formed (a ++ i :: b) ->
  forallb loops_apart (a ++ i :: b) = true -> ~ In c_colon (fr_name fr) ->
  render_all false h site a (RState (map fr_vars (fr :: r)) secs) = RDone o st ->
  (exists l c yes l', i = IIf l c yes l' /\ holds c (rs_scopes st) = Ok false /\ existsb is_block yes = true) \/
  (exists l c yes le no l', i = IIfElse l c yes le no l' /\ holds c (rs_scopes st) = Ok false /\ existsb is_block yes = true) \/
  (exists l c yes le no l', i = IIfElse l c yes le no l' /\ holds c (rs_scopes st) = Ok true /\ existsb is_block no = true) ->
  run (World h site (flat_map flat (a ++ i :: b))) (Scope 0 (fr :: r) secs) <> Ok s.
Proof.
  intros WF LA NC R H E. assert (W := proj2 (all_wf_forall _) WF).
  destruct H as [(l & c & yes & l' & -> & H1 & H2)|[(l & c & yes & le & no & l' & -> & H1 & H2)|(l & c & yes & le & no & l' & -> & H1 & H2)]].
  - revert E. apply odd_fails; [exact W|exact LA|exact NC|]. apply (odd_after _ _ _ _ _ _ o st R). cbn [render]. rewrite H1, H2. reflexivity.
  - revert E. apply odd_fails; [exact W|exact LA|exact NC|]. apply (odd_after _ _ _ _ _ _ o st R). cbn [render]. rewrite H1, H2. reflexivity.
  - destruct (render false h site (IIfElse l c yes le no l') st) as [o2 st2|e|p|] eqn:RI.
    + cbn [render] in RI. rewrite H1 in RI. destruct (rscope _ _ _) as [o3 st3|e|p|]; cbn [rthen negb andb] in RI; try discriminate RI.
      rewrite H2 in RI. discriminate RI.
    + assert (F := run_follows h site (a ++ IIfElse l c yes le no l' :: b) fr r secs W). cbv zeta in F. rewrite E in F.
      unfold render_all in *. rewrite rseq_app, R in F. cbn [rthen rseq] in F. rewrite RI in F. cbn [rthen] in F. discriminate F.
    + assert (F := run_follows h site (a ++ IIfElse l c yes le no l' :: b) fr r secs W). cbv zeta in F. rewrite E in F.
      unfold render_all in *. rewrite rseq_app, R in F. cbn [rthen rseq] in F. rewrite RI in F. cbn [rthen] in F. discriminate F.
    + revert E. apply odd_fails; [exact W|exact LA|exact NC|]. exact (odd_after _ _ _ _ _ _ o st R RI).
Qed.

(** ** Silently wrong pages *)
Definition C22_nested : list item :=
  let l := Loc [] 1 1 in
  [IFor l (ForFn (lit "x") (lit "xs") SrcVar None None None false)
     [ILeaf (raw (lit "<"));
      IFor l (ForFn (lit "y") (lit "x") SrcVar None None None false) [ILeaf (raw (lit "body"))] l;
      ILeaf (raw (lit ">"))] l].
Definition C22_nested_base : frame := Frame (lit "base") [(lit "xs", VArr [VArr []; VArr [VNull]])] [].
Definition C23_nested : list item :=
  let l := Loc [] 1 1 in
  [IFor l (ForFn (lit "x") (lit "xs") SrcVar None None None false)
     [ILeaf (raw (lit "<"));
      IIf l (TCompare CEq (IVar (lit "x")) (IStr (lit "b")))
        [IFor l (ForFn (lit "y") (lit "xs") SrcVar None None None false)
           [IIf l (TCompare CEq (IVar (lit "y")) (IStr (lit "b"))) [ILeaf (raw (lit "body"))] l; ILeaf (raw (lit "hidden"))] l] l;
      ILeaf (raw (lit ">"))] l].
Definition C23_nested_base : frame := Frame (lit "base") [(lit "xs", VArr [VStr (lit "a"); VStr (lit "b")])] [].
Lemma empty_silent : all_wf C22_nested /\
  render_all true no_host (NDir [] [] []) C22_nested (RState [fr_vars C22_nested_base] []) =
    RDone (enc (lit "<><body>")) (RState [fr_vars C22_nested_base] []) /\
  run (World no_host (NDir [] [] []) (flat_map flat C22_nested)) (Scope 0 [C22_nested_base] []) =
    Ok (Scope (length (flat_map flat C22_nested)) [add_out (enc (lit "<body<body>")) C22_nested_base] []).
Proof. now vm_compute. Qed.
Lemma hidden_silent : all_wf C23_nested /\
  render_all true no_host (NDir [] [] []) C23_nested (RState [fr_vars C23_nested_base] []) =
    RDone (enc (lit "<><hiddenbodyhidden>")) (RState [fr_vars C23_nested_base] []) /\
  run (World no_host (NDir [] [] []) (flat_map flat C23_nested)) (Scope 0 [C23_nested_base] []) =
    Ok (Scope (length (flat_map flat C23_nested)) [add_out (enc (lit "<hidden<hiddenbodyhidden>")) C23_nested_base] []).
Proof. now vm_compute. Qed.
