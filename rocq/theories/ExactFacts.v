(** ExactFacts.v -- a site that is built is in order (C90). *)

From Coq Require Import String List NArith ZArith Bool Lia.
From Verif Require Import Text TextFacts Utf8 Json Base Syntax Parse Tree Interp Build Disk Cli Js.
From Verif Require Import SpecJs SpecScope SpecPage SpecRender SpecTemplate SpecLoop SpecBlocks SpecMarkdown SpecTree SpecUtf8 SpecSound SpecDisk SpecProject SpecSite SpecExact.
From Verif Require Import JsFacts Utf8Facts ScopeFacts InterpFacts RenderFacts SelectFacts BlockFacts TextFnFacts LoopFacts ParseErr MarkdownFacts
  TreeFacts PathFacts BuildTotal GrammarFacts SoundFacts Utf8Run SpecEncoded EncodedFacts ReadsFacts DiskFacts CliFacts SiteFacts SiteDisk.
Import ListNotations.

(** ** The items of blocks, with names for all functions *)
Definition some_name : text := lit "x".
Inductive lies : block -> item -> Prop :=
| li_simple b t : bare b -> tags b = [t_inner t] -> lies b (ILeaf t)
| li_plugin p l : lies (BPlugin p) (IPlugin l (called (Some some_name) p) (beh_of p))
| li_section label body items l l' : Forall2 lies body items -> lies (BSection label body) (ISection l label true items true l')
| li_for f body items l l' : Forall2 lies body items -> lies (BFor f body) (IFor l f items l')
| li_if c yes items l l' : Forall2 lies yes items -> lies (BIf c yes) (IIf l c items l')
| li_ifelse c yes no items items' l le l' : Forall2 lies yes items -> Forall2 lies no items' ->
    lies (BIfElse c yes no) (IIfElse l c items le items' l').
Lemma placed_lies b : forall i, placed b i -> exists i', lies b i' /\ flat i' = map (call_all (Some some_name)) (flat i).
Proof.
  assert (L : forall l, Forall (fun b => forall i, placed b i -> exists i', lies b i' /\ flat i' = map (call_all (Some some_name)) (flat i)) l ->
    forall items, Forall2 placed l items -> exists items', Forall2 lies l items' /\ flat_map flat items' = map (call_all (Some some_name)) (flat_map flat items)).
  { intros l H items F. induction F as [|b0 i l items B F IH]; [exists []; split; [constructor|reflexivity]|]. inversion H as [|? ? H1 H2]; subst.
    destruct (H1 _ B) as (i' & B1 & B2). destruct (IH H2) as (its & C1 & C2). exists (i' :: its). split; [now constructor|]. cbn [flat_map]. now rewrite map_app, B2, C2. }
  induction b as [b S|p|label body IH|f body IH|c yes IH|c yes no IH1 IH2] using block_ind2; intros i H;
    inversion H as [b' t S' Tg|? lp|? ? items l l' F2|? ? items l l' F2|? ? items l l' F2|? ? ? items items' l le l' F2 F2']; subst; cbn [bare] in *; try contradiction.
  - exists (ILeaf t). split; [now constructor|]. cbn [flat map]. f_equal. unfold call_all. destruct t as [ti tl]. cbn [t_inner] in *. destruct b; try contradiction; cbn [tags] in Tg; injection Tg as <-; reflexivity.
  - exists (IPlugin lp (called (Some some_name) p) (beh_of p)). split; [constructor|reflexivity].
  - destruct (L _ IH _ F2) as (its & A & B). eexists. split; [constructor; exact A|]. cbn [flat]. rewrite B. cbn [map]. now rewrite map_app.
  - destruct (L _ IH _ F2) as (its & A & B). eexists. split; [constructor; exact A|]. cbn [flat]. rewrite B. cbn [map]. now rewrite map_app.
  - destruct (L _ IH _ F2) as (its & A & B). eexists. split; [constructor; exact A|]. cbn [flat]. rewrite B. cbn [map]. rewrite map_app. now destruct c.
  - destruct (L _ IH1 _ F2) as (its & A & B). destruct (L _ IH2 _ F2') as (its' & A' & B'). eexists. split; [constructor; [exact A|exact A']|]. cbn [flat]. rewrite B, B'. cbn [map]. rewrite map_app. cbn [map]. rewrite map_app. now destruct c.
Qed.
Lemma placed_lies_all l items : Forall2 placed l items -> exists items', Forall2 lies l items' /\ flat_map flat items' = map (call_all (Some some_name)) (flat_map flat items).
Proof.
  induction 1 as [|b i l items B F IH]; [exists []; split; [constructor|reflexivity]|].
  destruct (placed_lies _ _ B) as (i' & B1 & B2). destruct IH as (its & C1 & C2). exists (i' :: its). split; [now constructor|]. cbn [flat_map]. now rewrite map_app, B2, C2.
Qed.
Lemma called_acts n p beh : acts (called n p) beh <-> acts p beh.
Proof. reflexivity. Qed.
Lemma called_tame p : tame p <-> (pf_name p <> Some (lit "else") /\ pf_name p <> Some (lit "end")) /\ tame (called (Some some_name) p).
Proof.
  unfold tame. cbn [called pf_name]. split.
  - intros (A & B & beh & C). split; [now split|]. split; [discriminate|]. split; [discriminate|]. now exists beh.
  - intros ([A B] & _ & _ & beh & C). split; [exact A|]. split; [exact B|]. now exists beh.
Qed.

(** ** Blocks without loops in loops *)
Lemma lies_loops b : forall i, lies b i -> has_loop i = loop_in b.
Proof.
  assert (L : forall l, Forall (fun b => forall i, lies b i -> has_loop i = loop_in b) l -> forall items, Forall2 lies l items ->
    existsb has_loop items = existsb loop_in l).
  { intros l H items F. induction F as [|b0 i l items B F IH]; [reflexivity|]. inversion H as [|? ? H1 H2]; subst. cbn [existsb]. now rewrite (H1 _ B), (IH H2). }
  induction b as [b S|p|label body IH|f body IH|c yes IH|c yes no IH1 IH2] using block_ind2; intros i H; inversion H; subst;
    cbn [bare] in *; try contradiction; cbn [has_loop loop_in]; try reflexivity.
  - destruct b; try destruct S; reflexivity.
  - now apply L.
  - now apply L.
  - now rewrite (L _ IH1) by assumption; rewrite (L _ IH2) by assumption.
Qed.
Lemma lies_loops_all l items : Forall2 lies l items -> existsb has_loop items = existsb loop_in l.
Proof. induction 1 as [|b i l items B F IH]; [reflexivity|]. cbn [existsb]. now rewrite (lies_loops _ _ B), IH. Qed.
Lemma lies_apart b : forall i, lies b i -> loops_apart i = single_loops b.
Proof.
  assert (L : forall l, Forall (fun b => forall i, lies b i -> loops_apart i = single_loops b) l -> forall items, Forall2 lies l items ->
    forallb loops_apart items = forallb single_loops l).
  { intros l H items F. induction F as [|b0 i l items B F IH]; [reflexivity|]. inversion H as [|? ? H1 H2]; subst. cbn [forallb]. now rewrite (H1 _ B), (IH H2). }
  induction b as [b S|p|label body IH|f body IH|c yes IH|c yes no IH1 IH2] using block_ind2; intros i H; inversion H; subst;
    cbn [bare] in *; try contradiction; cbn [loops_apart single_loops]; try reflexivity.
  - destruct b; try destruct S; reflexivity.
  - now apply L.
  - now erewrite lies_loops_all by eassumption.
  - now apply L.
  - now rewrite (L _ IH1) by assumption; rewrite (L _ IH2) by assumption.
Qed.
Lemma lies_apart_all l items : Forall2 lies l items -> forallb single_loops l = true -> forallb loops_apart items = true.
Proof. induction 1 as [|b i l items B F IH]; [reflexivity|]. cbn [forallb]. rewrite (lies_apart _ _ B), !andb_true_iff. tauto. Qed.
(** Calls of plugin functions. *)
Definition tame_token (t : ltoken) : Prop := forall p, t_inner t = TFun (FPlugin p) -> tame p.
Lemma tame_behaves p : tame (called (Some some_name) p) -> behaves (called (Some some_name) p) (beh_of p) /\ acts p (beh_of p).
Proof.
  intros (_ & _ & beh & A & _). assert (X : acts p (beh_of p)) by exact (acts_beh p beh A). split; [|exact X]. split; [|exact X].
  exists some_name. split; [reflexivity|]. split; discriminate.
Qed.
Lemma lies_wf b : forall i, lies b i -> Forall tame_token (flat i) -> well_formed i.
Proof.
  assert (L : forall l, Forall (fun b => forall i, lies b i -> Forall tame_token (flat i) -> well_formed i) l -> forall items, Forall2 lies l items -> Forall tame_token (flat_map flat items) -> all_wf items).
  { intros l H items F. apply (fun X => X) in F. induction F as [|b0 i l items B F IH]; intros T; [exact Logic.I|]. inversion H; subst. cbn [flat_map] in T. apply Forall_app in T. destruct T. split; auto. }
  induction b as [b S|p|label body IH|f body IH|c yes IH|c yes no IH1 IH2] using block_ind2; intros i H T; inversion H; subst;
    cbn [bare] in *; try contradiction; cbn [well_formed].
  - match goal with T : tags b = _ |- _ => destruct b; try contradiction; cbn in T; injection T as T; rewrite <- T; reflexivity end.
  - inversion T as [|? ? T1 _]; subst. apply tame_behaves. exact (T1 _ eq_refl).
  - inversion T as [|? ? _ T']; subst. apply Forall_app in T'. eapply L; [exact IH|eassumption|apply T'].
  - inversion T as [|? ? _ T']; subst. apply Forall_app in T'. eapply L; [exact IH|eassumption|apply T'].
  - inversion T as [|? ? _ T']; subst. apply Forall_app in T'. eapply L; [exact IH|eassumption|apply T'].
  - inversion T as [|? ? _ T']; subst. apply Forall_app in T'. destruct T' as [T1 T']. inversion T' as [|? ? _ T2]; subst. apply Forall_app in T2. destruct T2 as [T2 _].
    split; [eapply L; [exact IH1|eassumption|exact T1]|eapply L; [exact IH2|eassumption|exact T2]].
Qed.
Lemma lies_all_wf l items : Forall2 lies l items -> Forall tame_token (flat_map flat items) -> Forall well_formed items.
Proof. induction 1; intros T; constructor; cbn [flat_map] in T; apply Forall_app in T; destruct T; [eapply lies_wf; eassumption|auto]. Qed.
Lemma blocks_simple l items : Forall2 lies l items -> Forall tame_token (flat_map flat items) -> existsb is_block items = false -> Forall named_calls l -> Forall simple l.
Proof.
  induction 1 as [|b i l items P F IH]; intros T E N; [constructor|]. cbn [existsb] in E. apply orb_false_iff in E. destruct E as [E1 E2]. cbn [flat_map] in T. apply Forall_app in T. destruct T as [T1 T2].
  inversion N as [|? ? N1 N2]; subst. constructor; [|now apply IH]. destruct P; try discriminate E1; [now apply bare_simple|]. inversion T1 as [|? ? T3 _]; subst.
  exists (beh_of p). split; [exact N1|]. apply tame_behaves. exact (T3 _ eq_refl).
Qed.
Definition all_careful (l : list block) : Prop := fold_right (fun b P => careful b /\ P) True l.
Lemma all_careful_forall l : all_careful l <-> Forall careful l.
Proof. induction l as [|b l IH]; cbn; [split; [constructor|intros; exact Logic.I]|]. rewrite Forall_cons_iff. now rewrite IH. Qed.

(** ** From rendering to printing *)
Lemma text_value v sc x : text_of v sc = Ok x -> value_of v sc (VStr x).
Proof.
  unfold text_of. intros H. apply value_get. destruct (get_variable v (frames sc)) as [[]|]; try discriminate H. now injection H as ->.
Qed.
Lemma eval_means sc i x : eval_input i (frames sc) = Some x -> exists y, SpecSite.means sc i y /\ x = to_input y.
Proof.
  destruct i as [v|s|z]; cbn [eval_input]; intros H.
  - destruct (get_variable v (frames sc)) as [[| |f|s| |]|] eqn:G; try discriminate H; injection H as <-; apply value_get in G.
    + exists (OpInt (f64_as_i32 f)). split; [|reflexivity]. apply me_var_num with f; [exact G|]. apply truncated_spec.
    + exists (OpStr s). split; [now constructor|reflexivity].
  - injection H as <-. exists (OpStr s). split; [constructor|reflexivity].
  - injection H as <-. exists (OpInt z). split; [constructor|reflexivity].
Qed.
Lemma holds_decided sc c b : holds c sc = Ok b -> decided sc c b.
Proof.
  destruct c as [v|c a b']; cbn [holds]; intros H.
  - destruct (get_variable v (frames sc)) as [x|] eqn:G.
    + apply value_get in G. assert (X : x = VNull \/ x <> VNull) by (destruct x; (now left) || (right; discriminate)). destruct X as [-> |X].
      * injection H as <-. apply dc_null. intros y Y. apply value_get in Y. apply value_get in G. congruence.
      * assert (b = true) by (destruct x; try (now injection H as <-); now destruct X). subst b. now apply dc_defined with x.
    + injection H as <-. apply dc_null. intros y Y. apply value_get in Y. congruence.
  - destruct (eval_input a (frames sc)) as [x|] eqn:A; cbn [ok_or bind] in H; [|discriminate H].
    destruct (eval_input b' (frames sc)) as [y|] eqn:B; cbn [ok_or bind] in H; [|discriminate H]. injection H as <-.
    destruct (eval_means _ _ _ A) as (x' & MX & ->). destruct (eval_means _ _ _ B) as (y' & MY & ->).
    destruct (cond c (to_input x') (to_input y')) eqn:C.
    + apply cond_made in C. now apply dc_yes with x' y'.
    + apply dc_no with x' y'; auto. intros Q. apply cond_made in Q. congruence.
Qed.

Section Printing.
  Variable h : host.
  Variable site : node.
  Variable json_at : text -> value -> Prop.
  Variable posts_at : text -> list value -> Prop.
  Hypothesis Host : scalar_host h.
  Hypothesis Scalar : scalar_site site.
  Hypothesis json_inv : forall file name b j meta src, get_at_path site file = Some (NFile name b (PJson j) meta src) -> json_at file j.
  Hypothesis posts_inv : forall dir name ch src vs, get_at_path site dir = Some (NDir name ch src) ->
    md_values (E := process_error) ch = Ok vs -> vs <> [] -> posts_at dir vs.

  Definition fine_scopes (sc : scopes) : Prop := Forall scalar_frame (frames sc).
  Definition fine_vars (vs : list (text * value)) : Prop := Forall (fun kv => scalar_value (snd kv)) vs.
  Lemma fine_push vs sc : fine_vars vs -> fine_scopes sc -> fine_scopes (vs :: sc).
  Proof. intros V F. constructor; [|exact F]. split; [exact V|exact utf8_nil]. Qed.
  Lemma fine_bind new vs r : fine_vars new -> fine_scopes (vs :: r) -> fine_scopes ((vs ++ new) :: r).
  Proof. intros N F. inversion F as [|? ? [F1 _] F2]; subst. apply fine_push; [|exact F2]. apply Forall_app. now split. Qed.

  Lemma value_scalars v sc x : fine_scopes sc -> value_of v sc (VStr x) -> scalars x.
  Proof. intros F V. apply value_get in V. apply scalar_variable in V; [|exact F]. now inversion V. Qed.
  Lemma encoded t : scalars t -> utf8_text (enc t) t.
  Proof. apply encoding. Qed.

  Lemma leaf_shows b t l vs r secs o new : bare b -> tags b = [t] -> scalar_token (LTok t l) -> fine_scopes (vs :: r) ->
    leaf_effect h site (vs :: r) secs t = Ok (o, new) -> shows (h_date h) json_at (vs :: r) secs b o new /\ fine_vars new.
  Proof.
    intros S T ST F E. destruct b; try destruct S; cbn in T; injection T as <-; cbn [leaf_effect] in E.
    - injection E as <- <-. split; [|constructor]. apply sh_text, encoded. exact ST.
    - unfold var_string in E. destruct (get_variable v (frames (vs :: r))) as [x|] eqn:G; cbn [bind] in E; [|discriminate E].
      destruct x as [| | |x| |]; try discriminate E. injection E as <- <-. apply value_get in G. split; [|constructor].
      apply sh_var with x; [exact G|]. apply encoded. now apply (value_scalars v (vs :: r)).
    - destruct (h_date h) as [d|] eqn:D; [|discriminate E]. destruct (text_of v (vs :: r)) as [x| | |] eqn:X; cbn [bind] in E; try discriminate E.
      destruct (d x fmt) as [y|] eqn:Y; [|discriminate E]. injection E as <- <-. apply text_value in X. split; [|constructor].
      apply sh_date with d x y; auto. apply encoded. apply (proj1 (proj2 Host) d x fmt); auto. now apply (value_scalars v (vs :: r)).
    - destruct (text_of v (vs :: r)) as [x| | |] eqn:X; cbn [bind] in E; try discriminate E. injection E as <- <-. apply text_value in X. split; [|constructor].
      assert (SX := value_scalars _ _ _ F X). assert (SE := encoded _ (excerpt_scalars n x SX)).
      destruct (excerpt_spec n x) as (c & rest & dots & R & Ex & D1 & D2 & D3). destruct rest as [|y rest].
      + assert (c = x) by (destruct R as [R _]; rewrite app_nil_r in R; now symmetry). subst c.
        assert (A : ascii x \/ ~ ascii x).
        { unfold ascii. destruct (forallb (fun c => (c <? 128)%N) x) eqn:Q; [left|right].
          - apply Forall_forall. intros c I. rewrite forallb_forall in Q. apply Q in I. lia.
          - intros K. assert (forallb (fun c => (c <? 128)%N) x = true); [|congruence]. apply forallb_forall. intros c I. rewrite Forall_forall in K. apply K in I. lia. }
        destruct A as [A|A].
        * apply sh_whole with x; auto. rewrite Ex, (D3 A eq_refl), app_nil_r in SE. rewrite Ex, (D3 A eq_refl), app_nil_r. exact SE.
        * apply sh_wide with x; auto. rewrite (excerpt_wide _ _ R A) in *. exact SE.
      + rewrite Ex, (D2 ltac:(discriminate)) in *. now apply sh_cut with x c y rest.
    - destruct (text_of v (vs :: r)) as [x| | |] eqn:X; cbn [bind] in E; try discriminate E. injection E as <- <-. apply text_value in X. split; [|constructor].
      destruct (words_exist x) as [ws W]. apply sh_time with x ws (show_N (minutes x)); auto.
      + unfold minutes. rewrite (words_count _ _ W), N.max_comm. apply show_N_decimal.
      + apply encoded. apply scalars_small, show_N_small.
    - destruct (get_at_path site file) as [[name b [| |j| | |] meta src|]|] eqn:G; try discriminate E. cbn [hd] in E.
      destruct (assoc x vs) as [y|] eqn:A; [discriminate E|]. injection E as <- <-. split.
      + apply sh_import with vs r; auto; [now apply assoc_none|]. eapply json_inv; exact G.
      + constructor; [|constructor]. cbn [snd]. apply (proj1 Scalar name b j meta src). eapply get_at_path_inside; exact G.
    - destruct (assoc label secs) as [b|] eqn:A; [|discriminate E]. injection E as <- <-. split; [|constructor]. apply sh_insert. now apply assoc_iff.
  Qed.

  Definition good_token (t : ltoken) : Prop := scalar_token t /\ tame_token t.
  Lemma good_tame l : Forall good_token l -> Forall tame_token l.
  Proof. apply Forall_impl. now intros t []. Qed.
  Definition item_inv (b : block) : Prop := forall i vs r secs o st, careful b -> lies b i -> Forall good_token (flat i) -> fine_scopes (vs :: r) ->
    render false h site i (RState (vs :: r) secs) = RDone o st ->
    exists new secs', st = RState ((vs ++ new) :: r) secs' /\ fine_vars new /\
      forall l o' new' secs'', prints (h_date h) json_at posts_at l ((vs ++ new) :: r) secs' o' new' secs'' ->
        prints (h_date h) json_at posts_at (b :: l) (vs :: r) secs (o ++ o') (new ++ new') secs''.
  Definition list_inv (l : list block) : Prop := forall items vs r secs o st, all_careful l -> Forall2 lies l items -> Forall good_token (flat_map flat items) -> fine_scopes (vs :: r) ->
    rseq (render false h site) items (RState (vs :: r) secs) = RDone o st ->
    exists new secs', st = RState ((vs ++ new) :: r) secs' /\ fine_vars new /\ prints (h_date h) json_at posts_at l (vs :: r) secs o new secs'.
  Lemma list_from_items l : Forall item_inv l -> list_inv l.
  Proof.
    induction 1 as [|b l B F IH]; intros items vs r secs o st Ca P T Fi E; inversion P as [|? i ? items' P1 P2]; subst.
    - cbn in E. injection E as <- <-. exists [], secs. rewrite app_nil_r. split; [reflexivity|]. split; constructor.
    - cbn [rseq flat_map] in *. apply Forall_app in T. destruct T as [T1 T2].
      destruct (render false h site i _) as [o1 st1| | |] eqn:R; cbn [rthen] in E; try discriminate E.
      destruct (B _ _ _ _ _ _ (proj1 Ca) P1 T1 Fi R) as (new & secs1 & -> & Nw & K).
      destruct (rseq (render false h site) items' _) as [o2 st2| | |] eqn:R2; try discriminate E. injection E as <- <-.
      destruct (IH _ _ _ _ _ _ (proj2 Ca) P2 T2 (fine_bind _ _ _ Nw Fi) R2) as (new2 & secs2 & -> & Nw2 & Pr).
      exists (new ++ new2), secs2. rewrite app_assoc. split; [reflexivity|]. split; [apply Forall_app; now split|]. now apply K.
  Qed.
  Lemma scope_inv l items new0 sc secs o st : list_inv l -> all_careful l -> Forall2 lies l items -> Forall good_token (flat_map flat items) -> fine_vars new0 -> fine_scopes sc ->
    rscope new0 (rseq (render false h site) items) (RState sc secs) = RDone o st ->
    exists new secs', st = RState sc secs' /\ prints (h_date h) json_at posts_at l (new0 :: sc) secs o new secs'.
  Proof.
    intros L Ca P T N Fi E. unfold rscope in E. cbn [rs_scopes rs_secs] in E.
    destruct (rseq _ items _) as [o1 st1| | |] eqn:R; try discriminate E. injection E as <- <-.
    destruct (L _ _ _ _ _ _ Ca P T (fine_push _ _ N Fi) R) as (new & secs' & -> & _ & Pr). now exists new, secs'.
  Qed.
  Lemma repeats_inv body items x : list_inv body -> all_careful body -> Forall2 lies body items -> Forall good_token (flat_map flat items) ->
    forall vs, Forall scalar_value vs -> forall sc secs o st, fine_scopes sc ->
    rseq (fun v => rscope [(x, v)] (rseq (render false h site) items)) vs (RState sc secs) = RDone o st ->
    exists secs', st = RState sc secs' /\ repeats (h_date h) json_at posts_at body x vs sc secs o secs'.
  Proof.
    intros L Ca P T vs Sv. induction Sv as [|v vs V Sv IH]; intros sc secs o st Fi E.
    - cbn in E. injection E as <- <-. exists secs. split; [reflexivity|constructor].
    - cbn [rseq] in E. destruct (rscope _ _ _) as [o1 st1| | |] eqn:R; cbn [rthen] in E; try discriminate E.
      destruct (scope_inv body items [(x, v)] sc secs o1 st1 L Ca P T) as (new & secs1 & -> & Pr); [now repeat constructor|exact Fi|exact R|].
      destruct (rseq _ vs _) as [o2 st2| | |] eqn:R2; try discriminate E. injection E as <- <-.
      destruct (IH _ _ _ _ Fi R2) as (secs2 & -> & Rp). exists secs2. split; [reflexivity|]. econstructor; eassumption.
  Qed.
  Lemma values_over f sc vs : for_values (World h site []) f (frames sc) = Ok vs -> vs <> [] -> loop_over json_at posts_at f sc vs.
  Proof.
    unfold for_values. cbn [w_input]. intros E N. destruct (ff_type f) eqn:T.
    - destruct (get_at_path site (ff_src f)) as [[|name ch src]|] eqn:G; try discriminate E. apply lv_dir; [exact T|]. eapply posts_inv; eassumption.
    - destruct (get_at_path site (ff_src f)) as [[name b [| |j| | |] meta src|]|] eqn:G; try discriminate E. destruct j; try discriminate E. cbn in E. injection E as ->.
      apply lv_json; [exact T|]. eapply json_inv; exact G.
    - destruct (get_variable (ff_src f) (frames sc)) as [v|] eqn:G; [|discriminate E]. destruct v; try discriminate E. cbn in E. injection E as ->.
      apply lv_var; [exact T|]. now apply value_get.
  Qed.
  Lemma item_printed b : item_inv b.
  Proof.
    induction b as [b S|p|label body IH|f body IH|c yes IH|c yes no IH1 IH2] using block_ind2; intros i vs r secs o st Ca P T Fi E;
      inversion P as [b' t S' Tg|? lp|? ? items l l' F2|? ? items l l' F2|? ? items l l' F2|? ? ? items items' l le l' F2 F2']; subst; try contradiction; cbn [bare] in *; try contradiction;
      cbn [render flat careful] in *; try (fold (all_careful body) in Ca); try (fold (all_careful yes) in Ca); try (fold (all_careful no) in Ca).
    - cbn [rs_scopes rs_secs] in E. destruct (leaf_effect h site (vs :: r) secs (t_inner t)) as [[o1 new]| | |] eqn:L; cbn [reffect] in E; try discriminate E.
      injection E as <- <-. destruct t as [tk lc]. cbn [t_inner] in *. inversion T as [|? ? T1 _]; subst.
      destruct (leaf_shows b tk lc vs r secs o1 new S Tg (proj1 T1) Fi L) as [Sh Nw]. exists new, secs. cbn [bind_vars rs_scopes rs_secs]. split; [reflexivity|]. split; [exact Nw|].
      intros l o' new' secs'' Pr. now apply pr_simple.
    - inversion T as [|? ? T1 _]; subst. destruct (proj2 T1 _ eq_refl) as (_ & _ & beh & A & St & Sv). cbn [rs_scopes rs_secs] in E. rewrite (beh_of_eq p beh) in E by exact A.
      destruct (beh lp (vs :: r) secs) as [[o1 new]| | |] eqn:B; cbn [reffect] in E; try discriminate E. injection E as <- <-.
      exists new, secs. cbn [bind_vars rs_scopes rs_secs]. split; [reflexivity|]. split.
      + apply (Sv lp (vs :: r) secs o1 new); [|exact B]. clear - Fi. induction (vs :: r) as [|x sc IH]; [constructor|]. inversion Fi as [|? ? [F1 _] F2]; subst. constructor; [exact F1|]. now apply IH.
      + intros l o' new' secs'' Pr. apply pr_simple; [|exact Pr]. apply sh_plugin with beh; [exact A|]. intros l0. exact (St lp l0 _ _ _ B).
    - inversion T as [|? ? _ T']; subst. apply Forall_app in T'. destruct T' as [T' _].
      destruct (rscope _ _ _) as [o1 st1| | |] eqn:R; try discriminate E. injection E as <- <-.
      destruct (scope_inv body items [] (vs :: r) secs o1 st1 (list_from_items _ IH) Ca F2 T') as (new & secs1 & -> & Pr); [constructor|exact Fi|exact R|].
      cbn [rs_scopes rs_secs]. exists [], (secs1 ++ [(label, o1)]). rewrite app_nil_r. split; [reflexivity|]. split; [constructor|]. intros. eapply pr_section; eassumption.
    - inversion T as [|? ? _ T']; subst. apply Forall_app in T'. destruct T' as [T' _]. cbn [rs_scopes] in E.
      destruct (for_values (World h site []) f (frames (vs :: r))) as [xs| | |] eqn:V; try discriminate E.
      assert (Sx := for_values_scalar (World h site []) Scalar f _ xs Fi V).
      destruct (select f xs) as [|v out] eqn:Se; [discriminate E|].
      assert (Sv : Forall scalar_value (v :: out)).
      { apply Forall_forall. intros y Y. rewrite <- Se in Y. apply select_in in Y. rewrite Forall_forall in Sx. now apply Sx. }
      destruct (repeats_inv body items (ff_var f) (list_from_items _ IH) Ca F2 T' (v :: out) Sv (vs :: r) secs o st Fi E) as (secs1 & -> & Rp).
      exists [], secs1. rewrite app_nil_r. split; [reflexivity|]. split; [constructor|]. intros l0 o' new' secs'' Pr. cbn [app].
      apply pr_for with xs v out secs1; auto.
      + apply values_over; [exact V|]. intros ->. assert (I : In v (select f [])) by (rewrite Se; now left). now apply select_in in I.
      + rewrite <- Se. apply select_visits.
    - inversion T as [|? ? _ T']; subst. apply Forall_app in T'. destruct T' as [T' _]. cbn [rs_scopes] in E.
      destruct (holds c (vs :: r)) as [[]| | |] eqn:H; try discriminate E; apply holds_decided in H.
      + destruct (scope_inv yes items [] (vs :: r) secs o st (list_from_items _ IH) (proj2 Ca) F2 T') as (new & secs1 & -> & Pr); [constructor|exact Fi|exact E|].
        exists [], secs1. rewrite app_nil_r. split; [reflexivity|]. split; [constructor|]. intros. eapply pr_if; try eassumption. apply Ca.
      + cbn [negb andb] in E. destruct (existsb is_block items) eqn:X; [discriminate E|]. injection E as <- <-. exists [], secs. rewrite app_nil_r.
        split; [reflexivity|]. split; [constructor|]. intros. cbn [app]. apply pr_skip; auto. eapply blocks_simple; [exact F2|now apply good_tame|exact X|apply Ca].
    - inversion T as [|? ? _ T']; subst. apply Forall_app in T'. destruct T' as [T1 T']. inversion T' as [|? ? _ T2]; subst. apply Forall_app in T2. destruct T2 as [T2 _].
      cbn [rs_scopes] in E. destruct (holds c (vs :: r)) as [[]| | |] eqn:H; try discriminate E; apply holds_decided in H; cbn [negb andb] in E.
      + destruct (rscope _ _ _) as [o1 st1| | |] eqn:R; cbn [rthen] in E; try discriminate E.
        destruct (existsb is_block items') eqn:X; [discriminate E|]. injection E as <- <-.
        destruct (scope_inv yes items [] (vs :: r) secs o1 st1 (list_from_items _ IH1) (proj1 (proj2 (proj2 Ca))) F2 T1) as (new & secs1 & -> & Pr); [constructor|exact Fi|exact R|].
        exists [], secs1. rewrite !app_nil_r. split; [reflexivity|]. split; [constructor|]. intros. cbn [app]. eapply pr_then; try eassumption; [apply Ca|]. eapply blocks_simple; [exact F2'|now apply good_tame|exact X|apply Ca].
      + destruct (existsb is_block items) eqn:X; [discriminate E|].
        destruct (scope_inv no items' [] (vs :: r) secs o st (list_from_items _ IH2) (proj2 (proj2 (proj2 Ca))) F2' T2) as (new & secs1 & -> & Pr); [constructor|exact Fi|exact E|].
        exists [], secs1. rewrite !app_nil_r. split; [reflexivity|]. split; [constructor|]. intros. cbn [app]. eapply pr_else; try eassumption; [|apply Ca]. eapply blocks_simple; [exact F2|now apply good_tame|exact X|apply Ca].
  Qed.

  Lemma run_printed l f secs toks s : Interp.run (World h site toks) (Scope 0 [f] secs) = Ok s -> map t_inner toks = flat_map tags l ->
    orderly l -> Forall scalar_token toks -> fine_vars (fr_vars f) -> ~ In c_colon (fr_name f) ->
    exists i vs o new secs', s = Scope i [Frame (fr_name f) vs (fr_out f ++ o)] secs' /\ prints (h_date h) json_at posts_at l [fr_vars f] secs o new secs'.
  Proof.
    intros E0 M (SL & CA & TA) ST0 FV NC. destruct (place_all l toks M) as (items0 & <- & P0). destruct (placed_lies_all _ _ P0) as (items & P & Fl).
    assert (TA' : forall p lc, In (LTok (TFun (FPlugin p)) lc) (flat_map flat items0) -> tame p) by (intros p lc I; apply TA; rewrite <- M; exact (in_map t_inner _ _ I)).
    assert (E : Interp.run (World h site (flat_map flat items)) (Scope 0 [f] secs) = Ok s).
    { rewrite Fl, <- E0. destruct (run_named some_name h site (flat_map flat items0)) with (s := Scope 0 [f] secs) as [X|X]; [split; discriminate| |congruence|exact X].
      intros p lc I. apply TA' in I. now apply called_tame in I. }
    assert (ST : Forall good_token (flat_map flat items)).
    { rewrite Fl. apply Forall_forall. intros t I. apply in_map_iff in I. destruct I as (t0 & <- & I). assert (Q := proj1 (Forall_forall _ _) ST0 t0 I).
      destruct t0 as [[x|g|x] lc]; try (split; [exact Q|intros p Ep; discriminate Ep]).
      destruct g; try (split; [exact Q|intros q Ep; discriminate Ep]). split; [exact Q|]. intros q Ep. injection Ep as <-. apply TA' in I. now apply called_tame in I. }
    assert (WF := lies_all_wf _ _ P (good_tame _ ST)). assert (LA := lies_apart_all _ _ P SL). apply all_careful_forall in CA.
    assert (NO : render_all false h site items (RState (map fr_vars [f]) secs) <> ROdd).
    { intros R. exact (odd_fails h site items f [] secs s (proj2 (all_wf_forall _) WF) LA NC R E). }
    destruct (sound h site items f [] secs s WF LA NC E) as (o & st & new & R & Sc & ->). rewrite (ideal_all h site items _ NO) in R. cbn [map] in R.
    destruct (list_from_items l (proj2 (Forall_forall _ _) (fun b _ => item_printed b)) items (fr_vars f) [] secs o st CA P ST (fine_push _ [] FV (Forall_nil _)) R)
      as (new' & secs' & -> & _ & Pr). cbn [rs_scopes rs_secs] in *. injection Sc as Sc. apply app_inv_head in Sc. subst new'.
    do 5 eexists. split; [reflexivity|exact Pr].
  Qed.
End Printing.

(** ** What was loaded *)
Lemma loaded_html h ps name b n : loaded_as h ps name b n -> has_ext name (lit "html") -> exists t toks src, utf8_text b t /\
  n = NFile name b (PHtml toks) None src /\ SpecGrammar.means (h_ext h) (map (fun p => (pl_name p, pl_fns p)) ps) t (map t_inner toks).
Proof.
  intros (p & E) X. unfold create_from_file in E. rewrite (ext_of _ _ X), text_eqb_refl in E.
  destruct (from_utf8 b) as [t|] eqn:U; cbn [ok_or bind] in E; [|discriminate E]. apply decoding in U.
  destruct (parse_html _ _ _ _) as [toks| | |] eqn:P; cbn [map_err bind] in E; try discriminate E. injection E as <-.
  exists t, toks, p. split; [exact U|]. split; [reflexivity|]. apply (parse_means _ _ p). now exists toks.
Qed.
Lemma loaded_json h ps name b n : loaded_as h ps name b n -> has_ext name (lit "json") -> exists t j src, utf8_text b t /\
  n = NFile name b (PJson j) None src /\ h_json h t = Some j.
Proof.
  intros (p & E) X. unfold create_from_file in E. rewrite (ext_of _ _ X) in E.
  change (text_eqb (lit "json") (lit "html")) with false in E. change (text_eqb (lit "json") (lit "md")) with false in E.
  change (text_eqb (lit "json") (lit "json")) with true in E. cbv iota in E.
  destruct (from_utf8 b) as [t|] eqn:U; cbn [ok_or bind] in E; [|discriminate E]. apply decoding in U.
  destruct (h_json h t) as [j|] eqn:J; cbn [ok_or bind] in E; [|discriminate E]. injection E as <-. now exists t, j, p.
Qed.
Lemma loaded_md h ps name b n : loaded_as h ps name b n -> has_ext name (lit "md") -> exists t fm body toks src, utf8_text b t /\ md_parts t fm body /\
  n = NFile name b (PMarkdown (Markdown fm toks body None)) None src /\ SpecGrammar.means (h_ext h) (map (fun p => (pl_name p, pl_fns p)) ps) body (map t_inner toks).
Proof.
  intros (p & E) X. unfold create_from_file in E. rewrite (ext_of _ _ X) in E.
  change (text_eqb (lit "md") (lit "html")) with false in E. change (text_eqb (lit "md") (lit "md")) with true in E. cbv iota in E.
  destruct (from_utf8 b) as [t|] eqn:U; cbn [ok_or bind] in E; [|discriminate E]. apply decoding in U.
  destruct (front_cases (h_ext h) (fns ps) p t) as [(x & _ & Q)|(fm & body & MP & Q)]; rewrite Q in E; cbn [map_err bind] in E; [discriminate E|].
  unfold md_result in E. destruct (parse_html _ _ _ _) as [toks| | |] eqn:P; cbn [map_err bind] in E; try discriminate E. injection E as <-.
  exists t, fm, body, toks, p. split; [exact U|]. split; [exact MP|]. split; [reflexivity|]. apply (parse_means _ _ p). now exists toks.
Qed.

Lemma set_key_field k x l : set_field k x l (set_key k x l).
Proof.
  induction l as [|[k' v] l IH]; cbn [set_key]; [apply (sf_new k x []); intros []|].
  destruct (text_eqb k' k) eqn:E.
  - apply text_eqb_eq in E. subst k'. apply (sf_old k x [] v l). intros [].
  - apply text_eqb_neq in E. remember (set_key k x l) as l' eqn:Q. clear Q. destruct IH as [l N|l1 y l2 N].
    + apply (sf_new k x ((k', v) :: l)). cbn. intros [Q|Q]; contradiction.
    + apply (sf_old k x ((k', v) :: l1) y l2). cbn. intros [Q|Q]; contradiction.
Qed.

(** ** The site *)
Section Site.
  Variable h : host.
  Variable ps : list plugin.
  Variable meta : bool.
  Variable osenv : list (text * text).
  Variable mode : text.
  Variable content : ent.
  Variable input input' : node.
  Variable top : text.
  Hypothesis D : ent_distinct content.
  Hypothesis Hin : stands (loaded_as h ps) top content input.
  Let vars := build_vars osenv mode.
  Let pr0 := build_pr h meta vars input.
  Hypothesis Hpre : preprocess pr0 input = Ok input'.
  Let pr1 := build_pr h meta vars input'.
  Hypothesis Lay : laid_out h ps content.
  Hypothesis Parsers : flat_map pl_parsers ps = [].
  Hypothesis Host : scalar_host h.
  Hypothesis Fine : EncodedFacts.fine input.
  Hypothesis Fine' : EncodedFacts.fine input'.
  Hypothesis Base : fine_vars (fr_vars (base_frame vars)).

  Let Hin' : stands (ready_as h ps pr0) top content input'.
  Proof. exact (preprocess_stands _ _ _ _ _ _ _ Hin Hpre). Qed.
  Let D0 : distinct input. Proof. exact (stands_distinct _ _ _ _ Hin D). Qed.
  Let D1 : distinct input'. Proof. exact (stands_distinct _ _ _ _ Hin' D). Qed.
  Let page_base := page_vars osenv mode.
  Let NC : ~ In c_colon (fr_name (base_frame vars)).
  Proof. cbn. intuition discriminate. Qed.

  Lemma spine_inside n anc0 ks anc f : spine n anc0 ks anc f -> inside f n.
  Proof. induction 1; [constructor|eapply in_child; eassumption]. Qed.
  Lemma at_spine n ks f : at_names n ks f -> exists anc, spine n [] ks anc f.
  Proof.
    assert (G : forall n ks f, at_names n ks f -> forall a, exists anc, spine n a ks anc f); [|intros; now apply G].
    clear. induction 1 as [n|nm ch src c ks n I H IH]; intros a; [exists a; constructor|]. destruct (IH (ch :: a)) as [anc S]. exists anc. now econstructor.
  Qed.
  (** The entry found at a path. *)
  Lemma get_entry R site p n : stands R top content site -> distinct site -> get_at_path site p = Some n ->
    exists ks anc name e, path_of p ks /\ spine site [] ks anc n /\ ent_at content ks e /\ stands R name e n.
  Proof.
    intros S Ds G. apply (path_resolves _ _ _ Ds) in G. destruct G as (hd & tl & ks & E & F & N & P & A).
    destruct (at_spine _ _ _ A) as [anc Sp]. destruct (spine_stands _ _ _ _ _ _ Sp _ _ S) as (name & e & Ae & Se).
    exists ks, anc, name, e. split; [now exists hd, tl|]. now split.
  Qed.
  Lemma spine_last n a ks anc f : spine n a ks anc f -> ks <> [] -> exists ks', ks = ks' ++ [n_name f].
  Proof.
    induction 1 as [n a|nm ch src c ks a anc f I H IH]; intros K; [now destruct K|].
    destruct ks as [|k ks]; [inversion H; subst; now exists []|]. destruct IH as [ks' E]; [discriminate|]. rewrite E. now exists (n_name c :: ks').
  Qed.
  Lemma dir_top R site : stands R top content site -> forall n anc, spine site [] [] anc n -> is_file n = true -> exists b, content = EFile b.
  Proof. intros S n anc Sp F. inversion Sp; subst. inversion S as [? b ? _ _ _|]; subst; [now exists b|discriminate F]. Qed.
  Hypothesis Dir : exists l, content = EDir l.

  Lemma file_entry R site p n : stands R top content site -> distinct site -> get_at_path site p = Some n -> is_file n = true ->
    exists ks name b, path_of p (ks ++ [name]) /\ ent_at content (ks ++ [name]) (EFile b) /\ n_name n = name /\ R name b n.
  Proof.
    intros S Ds G F. destruct (get_entry R site p n S Ds G) as (ks & anc & name & e & P & Sp & A & Se).
    assert (NE : ks <> []). { intros ->. destruct (dir_top R site S n anc Sp F) as [b X]. destruct Dir as [l Y]. rewrite Y in X. discriminate X. }
    destruct (spine_last _ _ _ _ _ Sp NE) as [ks' ->]. inversion Se as [? b ? Rn Nn _|]; subst; [|discriminate F].
    exists ks', (n_name n), b. now repeat split.
  Qed.
  Lemma json_back file name b j m src : get_at_path input file = Some (NFile name b (PJson j) m src) -> site_json h content file j.
  Proof.
    intros G. destruct (file_entry _ _ _ _ Hin D0 G eq_refl) as (ks & nm & b' & P & A & <- & (p & L)). cbn [n_name] in *.
    destruct (create_file_kind _ _ _ _ _ _ L) as (pc & Q & K). injection Q as <- <- -> ->.
    destruct K as [(_ & t & K)|[(_ & m & K & _)|[(X & v & K)|[(? & ? & ? & _ & _ & _ & _ & _ & _ & K)|(K & _)]]]]; try discriminate K. injection K as <-.
    destruct (loaded_json h ps name b _ (ex_intro _ p L) X) as (t & j' & s & U & Q & J). injection Q as <- <-. now exists ks, name, b, t.
  Qed.
  Lemma json_back' file name b j m src : get_at_path input' file = Some (NFile name b (PJson j) m src) -> site_json h content file j.
  Proof.
    intros G. destruct (file_entry _ _ _ _ Hin' D1 G eq_refl) as (ks & nm & b' & P & A & <- & (n0 & (p & L) & Pp)). cbn [n_name] in *.
    destruct (create_file_kind _ _ _ _ _ _ L) as (pc & -> & K).
    destruct K as [(_ & t & ->)|[(X & m0 & -> & _)|[(X & v & ->)|[(? & ? & ? & _ & _ & _ & _ & I & _ & _)|(-> & _)]]]]; try (rewrite Parsers in I; destruct I).
    - cbn in Pp. discriminate Pp.
    - exfalso. cbn [preprocess] in Pp. destruct (map_err _ _); cbn [bind] in Pp; discriminate Pp.
    - cbn in Pp. injection Pp as -> -> <- <-. destruct (loaded_json h ps name b _ (ex_intro _ p L) X) as (t & j' & s & U & Q & J). injection Q as <- <-. now exists ks, name, b, t.
    - cbn in Pp. discriminate Pp.
  Qed.
  (** The bodies of markdown files are not ready before all have been rendered. *)
  Lemma no_posts dir name ch src vs : get_at_path input dir = Some (NDir name ch src) -> md_values (E := process_error) ch = Ok vs -> vs <> [] -> False.
  Proof.
    intros G V N. destruct (get_entry _ _ _ _ Hin D0 G) as (ks & anc & nm & e & P & Sp & A & Se). assert (F : exists l, Forall2 (fun e => stands (loaded_as h ps) (fst e) (snd e)) l ch) by (inversion Se; subst; [discriminate|eauto]). destruct F as [l F]. clear -F V N.
    apply N. clear N. revert vs V. induction F as [|ke c l ch S F IH]; intros vs V; cbn [md_values] in V; [now injection V as <-|].
    destruct (n_parsed c) as [| m | | | |] eqn:Q; try (now apply IH).
    inversion S as [? b ? (p & L) _ _|]; subst; [|discriminate Q]. destruct (create_file_kind _ _ _ _ _ _ L) as (pc & -> & K). cbn in Q. subst pc.
    destruct K as [(_ & t & K)|[(_ & m' & K & H)|[(_ & v & K)|[(? & ? & ? & _ & _ & _ & _ & _ & _ & K)|(K & _)]]]]; try discriminate K. injection K as <-.
    unfold md_to_value in V. rewrite H in V. discriminate V.
  Qed.
  Lemma inside_scalar n f : EncodedFacts.fine n -> inside f n -> EncodedFacts.fine_file f.
  Proof. intros F I. now apply F. Qed.

  (** The value of a markdown file. *)
  Lemma post_back ks anc name b n : ent_at content (ks ++ [name]) (EFile b) -> spine input' [] (ks ++ [name]) anc n -> ready_as h ps pr0 name b n -> has_ext name (lit "md") ->
    exists m src v, n = NFile name b (PMarkdown m) None src /\ (forall E, md_to_value (E := E) m = Ok v) /\ post h ps page_base content b v.
  Proof.
    intros A Sp (n0 & L & P) X. destruct (loaded_md _ _ _ _ _ L X) as (t & fm & body & toks & src & U & MP & -> & W).
    destruct (Lay ks name b t body (map t_inner toks) A U) as (l & El & SL); [right; split; [exact X|now exists fm]|exact W|].
    assert (Sc : Forall scalar_token toks).
    { assert (Fn := inside_scalar _ n Fine' (spine_inside _ _ _ _ _ Sp)). cbn [preprocess] in P. destruct (preprocess_markdown _ _ _) as [m'| | |] eqn:Q; cbn [map_err bind] in P; try discriminate P.
      injection P as <-. unfold preprocess_markdown in Q. cbn [pr0 build_pr pr_base md_tokens] in Q. destruct (phase _ _ _ _) as [s| | |]; cbn [bind] in Q; try discriminate Q.
      destruct (sc_stack s) as [|f0 ?]; [discriminate Q|]. destruct (is_base f0); [|discriminate Q]. destruct (from_utf8 _); [|discriminate Q]. injection Q as <-. apply Fn. }
    cbn [preprocess] in P. unfold preprocess_markdown in P. cbn [pr0 build_pr pr_base md_tokens] in P. unfold phase in P. cbn [pr0 build_pr pr_input pr_host] in P.
    destruct (Interp.run _ _) as [s| | |] eqn:R; cbn [bind map_err] in P; try discriminate P.
    destruct (run_printed h input (site_json h content) (fun _ _ => False) Host (fine_site _ Fine) json_back no_posts l (base_frame vars) [] toks s R El SL Sc Base NC)
      as (i & vs & o & new & secs' & -> & Pr).
    cbn [sc_stack] in P. change (is_base (Frame (fr_name (base_frame vars)) vs (fr_out (base_frame vars) ++ o))) with true in P. cbv iota in P.
    cbn [fr_out base_frame add_var new_frame app] in P. destruct (from_utf8 o) as [out|] eqn:Uo; cbn [map_err bind] in P; [|discriminate P]. apply decoding in Uo.
    cbn [md_front md_tokens md_string pr_host] in P. injection P as <-. do 3 eexists. split; [reflexivity|]. split.
    - intros E. unfold md_to_value. cbn [md_html md_front md_string]. reflexivity.
    - exists t, fm, body, l, o, new, secs', out. do 2 eexists. split; [exact U|]. split; [exact MP|]. split; [unfold written; rewrite <- El; exact W|]. split; [exact Pr|].
      split; [exact Uo|]. split; [apply set_key_field|]. split; [apply set_key_field|]. reflexivity.
  Qed.

  Lemma posts_back dir name ch src vs : get_at_path input' dir = Some (NDir name ch src) -> md_values (E := process_error) ch = Ok vs -> vs <> [] ->
    site_posts h ps page_base content dir vs.
  Proof.
    intros G V _. destruct (get_entry _ _ _ _ Hin' D1 G) as (ks & anc & nm & e & P & Sp & A & Se).
    assert (F : exists l, e = EDir l /\ Forall2 (fun e => stands (ready_as h ps pr0) (fst e) (snd e)) l ch) by (inversion Se; subst; [discriminate|eauto]).
    destruct F as (l & -> & F). exists ks, l. split; [exact P|]. split; [exact A|].
    assert (I : incl ch ch) by (intros x Hx; exact Hx). assert (J : incl l l) by (intros x Hx; exact Hx).
    revert I J vs V. generalize ch at 2. intros all. generalize l at 2. intros lall. revert Sp A F.
    cut (spine input' [] ks anc (NDir name ch src) -> ent_at content ks (EDir l) -> Forall2 (fun e => stands (ready_as h ps pr0) (fst e) (snd e)) l ch ->
      forall l1 ch1, Forall2 (fun e => stands (ready_as h ps pr0) (fst e) (snd e)) l1 ch1 -> incl ch1 ch -> incl l1 l -> forall vs, md_values (E := process_error) ch1 = Ok vs -> entry_posts h ps page_base content l1 vs).
    { intros C Sp A F _ _ vs V. apply (C Sp A F l ch F); auto; intros x Hx; exact Hx. }
    intros Sp A F l1 ch1 F1. induction F1 as [|[k e] c l1 ch1 S F1 IH]; intros I J vs V; cbn [md_values] in V; [injection V as <-; constructor|].
    assert (I' : incl ch1 ch) by (intros x Hx; apply I; now right). assert (J' : incl l1 l) by (intros x Hx; apply J; now right).
    cbn [fst snd] in S. assert (Sc : spine input' [] (ks ++ [k]) (ch :: anc) c).
    { rewrite <- (stands_name _ _ _ _ S). eapply spine_app; [exact Sp|]. econstructor; [apply I; now left|constructor]. }
    assert (Ac : ent_at content (ks ++ [k]) e) by (eapply ent_at_app; [exact A|]; econstructor; [apply J; now left|constructor]).
    assert (K : (has_ext k (lit "md") /\ exists b, e = EFile b) \/ ~ (has_ext k (lit "md") /\ exists b, e = EFile b)).
    { destruct e as [b|l0|]; [|right; intros (_ & b & Q); discriminate Q|right; intros (_ & b & Q); discriminate Q].
      destruct (extension k) as [x|] eqn:X; [|right; intros (Q & _); apply extension_spec in Q; congruence]. apply extension_spec in X.
      destruct (text_eqb x (lit "md")) eqn:Q; [apply text_eqb_eq in Q; subst x; left; split; [exact X|now exists b]|].
      right. intros (Y & _). rewrite (has_ext_unique _ _ _ X Y), text_eqb_refl in Q. discriminate Q. }
    destruct K as [(X & b & ->)|K].
    - inversion S as [? ? ? R Nm Fl|]; subst. destruct (post_back ks (ch :: anc) (n_name c) b c Ac Sc R X) as (m & s & v & Ec & Mv & Po).
      assert (Q : n_parsed c = PMarkdown m) by (now rewrite Ec). rewrite Q, Mv in V. cbn [bind] in V.
      destruct (md_values ch1) as [r| | |] eqn:Mr; cbn [bind] in V; try discriminate V. injection V as <-. apply ep_post; auto.
    - apply ep_other; [exact K|]. apply IH; auto. destruct (n_parsed c) as [| m | | | |] eqn:Q; try exact V. exfalso. apply K. eapply not_post; eassumption.
  Qed.

  Lemma run_says l f secs toks s : Interp.run (World h input' toks) (Scope 0 [f] secs) = Ok s -> map t_inner toks = flat_map tags l ->
    orderly l -> Forall scalar_token toks -> fine_vars (fr_vars f) -> ~ In c_colon (fr_name f) ->
    exists i vs o secs', s = Scope i [Frame (fr_name f) vs (fr_out f ++ o)] secs' /\ says h ps page_base content l (fr_vars f) secs o secs'.
  Proof.
    intros R M SL ST FV N. destruct (run_printed h input' (site_json h content) (site_posts h ps page_base content) Host (fine_site _ Fine') json_back' posts_back l f secs toks s R M SL ST FV N)
      as (i & vs & o & new & secs' & -> & Pr). exists i, vs, o, secs'. split; [reflexivity|]. now exists new.
  Qed.

  (** ** Templates *)
  Lemma html_back ks anc name b n : ent_at content (ks ++ [name]) (EFile b) -> spine input' [] (ks ++ [name]) anc n -> ready_as h ps pr0 name b n -> has_ext name (lit "html") ->
    exists t l toks src, n = NFile name b (PHtml toks) None src /\ utf8_text b t /\ written (h_ext h) (map (fun p => (pl_name p, pl_fns p)) ps) t l /\
      map t_inner toks = flat_map tags l /\ orderly l /\ Forall scalar_token toks.
  Proof.
    intros A Sp (n0 & L & P) X. destruct (loaded_html _ _ _ _ _ L X) as (t & toks & src & U & -> & W). cbn in P. injection P as <-.
    destruct (Lay ks name b t t (map t_inner toks) A U) as (l & El & SL); [left; now split|exact W|].
    assert (Fn := inside_scalar _ _ Fine' (spine_inside _ _ _ _ _ Sp)). cbn in Fn.
    exists t, l, toks, src. split; [reflexivity|]. split; [exact U|]. split; [unfold written; rewrite <- El; exact W|]. split; [exact El|]. split; [exact SL|apply Fn].
  Qed.
  Lemma template_back name toks : has_ext name (lit "html") -> forall ks anc nm ch src, spine input' [] ks anc (NDir nm ch src) ->
    template_of name (ch :: anc) (Some toks) -> exists l, template_at h ps content name ks l /\ map t_inner toks = flat_map tags l /\ orderly l /\ Forall scalar_token toks.
  Proof.
    intros X ks. induction ks as [|k ks IH] using rev_ind; intros anc nm ch src Sp T.
    all: assert (Here : forall n, In n ch -> n_name n = name -> html_of n = Some toks -> forall ks0, spine input' [] ks0 anc (NDir nm ch src) ->
      exists l, template_at h ps content name ks0 l /\ map t_inner toks = flat_map tags l /\ orderly l /\ Forall scalar_token toks)
      by (clear Sp T; intros n I N Hn ks0 Sp;
      assert (Sn : spine input' [] (ks0 ++ [name]) (ch :: anc) n) by (rewrite <- N; eapply spine_app; [exact Sp|]; econstructor; [exact I|constructor]);
      destruct (spine_stands _ _ _ _ _ _ Sn _ _ Hin') as (nm' & e & A & S); inversion S as [? b ? R Nn Fn|]; subst; [|discriminate Hn];
      destruct (html_back ks0 (ch :: anc) (n_name n) b n A Sn R X) as (t & l & toks' & s & En & U & W & M & SL & ST);
      rewrite En in Hn; cbn in Hn; injection Hn as <-; exists l; split; [|split; [exact M|split; [exact SL|exact ST]]];
      exists ks0, [], b, t; rewrite app_nil_r; split; [reflexivity|]; split; [exact A|]; split; [|split; [exact U|exact W]];
      intros a c e Ea Na; destruct a; [contradiction|discriminate Ea]).
    - remember (Some toks) as o eqn:Eo. inversion Sp; subst. inversion T as [|? ? n I N Hn|? ? ? N T2]; subst.
      + exact (Here n I eq_refl ltac:(eassumption) [] Sp).
      + inversion T2.
    - destruct (spine_split _ _ _ _ _ _ Sp) as (anc1 & d & Sp1 & Sp2). inversion Sp2 as [|nm1 ch1 src1 c ? ? ? ? Ic S2 Q]; subst. inversion S2; subst.
      remember (Some toks) as o eqn:Eo. inversion T as [|? ? n I N Hn|? ? ? N T2]; subst.
      + exact (Here n I eq_refl ltac:(eassumption) _ Sp).
      + destruct (IH _ _ _ _ Sp1 T2) as (l & (ks1 & ks2 & b & t & -> & A & No & U & W) & K). exists l. split; [|exact K].
        exists ks1, (ks2 ++ [nm]), b, t. split; [now rewrite app_assoc|]. split; [exact A|]. split; [|split; [exact U|exact W]].
        intros a c e Ea Na Ae. destruct c as [|c0 c _] using rev_ind.
        * rewrite app_nil_r in Ea. subst a. rewrite <- app_assoc in Ae. destruct (stands_at _ _ _ _ Ae _ _ [] Hin') as (anc' & n' & name' & Sx & _).
          rewrite !app_assoc in Sx. destruct (spine_split _ _ _ _ _ _ Sx) as (anc2 & d2 & Sd & Se). rewrite <- app_assoc in Sd.
          cbn [n_name] in *. rewrite <- app_assoc in Sp. destruct (spine_unique _ _ _ _ _ Sp D1 _ _ Sd) as [<- <-].
          inversion Se as [|? ? ? x ? ? ? ? Ix Sx2]; subst. apply N. now apply in_map.
        * rewrite app_assoc in Ea. apply app_inj_tail in Ea. destruct Ea as [Ea _]. exact (No a c e Ea Na Ae).
  Qed.

  (** ** Pages *)
  Lemma two_back src toks root first l1 l2 o : two_phases pr1 src toks root first (base_frame vars) = Ok o ->
    map t_inner toks = flat_map tags l1 -> orderly l1 -> Forall scalar_token toks ->
    map t_inner root = flat_map tags l2 -> orderly l2 -> Forall scalar_token root ->
    fine_vars (fr_vars first) -> fr_name first = lit "base" ->
    exists o1 secs secs', says h ps page_base content l1 (fr_vars first) [] o1 secs /\ says h ps page_base content l2 page_base secs o secs'.
  Proof.
    intros T M1 L1 S1 M2 L2 S2 V N. unfold two_phases, phase in T. cbn [pr1 build_pr pr_input pr_host] in T.
    destruct (Interp.run _ _) as [s| | |] eqn:R1 in T; cbn [bind] in T; try discriminate T.
    destruct (run_says l1 first [] toks s R1 M1 L1 S1 V) as (i & vs & o1 & secs & -> & P1); [rewrite N; exact NC|].
    cbn [sc_stack sc_secs] in T. unfold is_base in T. cbn [fr_name] in T. rewrite N, text_eqb_refl in T.
    destruct (Interp.run _ _) as [s| | |] eqn:R2 in T; cbn [bind] in T; try discriminate T.
    destruct (run_says l2 (base_frame vars) secs root s R2 M2 L2 S2 Base NC) as (i2 & vs2 & o2 & secs2 & -> & P2).
    cbn [sc_stack fr_out base_frame add_var new_frame app] in T. injection T as <-. exists o1, secs, secs2. now split.
  Qed.

  Lemma file_back out ks name b : mirror (publishes pr1 vars) [] input' out -> ent_at content (ks ++ [name]) (EFile b) ->
    in_order h ps page_base content ks name b.
  Proof.
    intros M A. destruct (stands_file _ _ _ _ _ A _ _ [] Hin') as (anc & d & ch & src & c & Sp & I & R & Nc & Fc).
    assert (Sc : spine input' [] (ks ++ [name]) (ch :: anc) c) by (rewrite <- Nc; eapply spine_app; [exact Sp|]; econstructor; [exact I|constructor]).
    assert (J : has_ext name (lit "json") -> exists t j, utf8_text b t /\ h_json h t = Some j).
    { intros X. destruct R as (n0 & L & _). destruct (loaded_json _ _ _ _ _ L X) as (t & j & s & U & _ & J). now exists t, j. }
    assert (T : is_template name -> exists t l, utf8_text b t /\ written (h_ext h) (map (fun p => (pl_name p, pl_fns p)) ps) t l).
    { intros T. destruct (html_back ks (ch :: anc) name b c A Sc R) as (t & l & toks & s & _ & U & W & _); [destruct T as [-> | ->]; [exact root_ext|exact md_ext]|now exists t, l]. }
    split; [|now split].
    destruct (mirror_page _ _ _ _ _ _ _ _ _ Sp I Fc M) as (c' & Pu & _).
    inversion Pu as [f p root' md' po b' name' m' Pg T1 T2 RP PC N1 N2|nm' b0 c0 m0 s0 ? ? ? ? NT' ? ? ?|nm' b0 p0 m0 s0 ? Q']; subst.
    - inversion Pg as [nm' b0 toks m0 s0 NT|nm' b0 m m0 s0 NT]; subst; cbn [n_name n_source] in *.
      + assert (X : has_ext nm' (lit "html")).
        { destruct R as (n0 & (p & L) & P). destruct (create_file_kind _ _ _ _ _ _ L) as (pc & -> & K).
          destruct K as [(X & _)|[(_ & m & -> & _)|[(_ & v & ->)|[(? & ? & ? & _ & _ & _ & _ & In1 & _ & _)|(-> & _)]]]]; [exact X| | | |].
          - exfalso. cbn [preprocess] in P. destruct (map_err _ _); cbn [bind] in P; discriminate P.
          - cbn in P. discriminate P.
          - rewrite Parsers in In1. destruct In1.
          - cbn in P. discriminate P. }
        destruct (html_back ks (ch :: anc) nm' b _ A Sc R X) as (t & l & toks' & s & En & U & W & Mt & SL & ST). injection En as <- <- -> ->.
        cbn [render_page] in RP. unfold process_html in RP. cbn [ev_root] in RP. destruct root' as [rt|]; cbn [ok_or bind] in RP; [|discriminate RP].
        cbn [pr1 build_pr pr_base] in RP. fold pr1 in RP. destruct (two_phases _ _ _ _ _ _) as [o| | |] eqn:Tw; cbn [bind] in RP; try discriminate RP.
        destruct (template_back _ _ root_ext _ _ _ _ _ Sp T1) as (lr & Tr & Mr & SLr & STr).
        destruct (two_back _ _ _ _ l lr _ Tw Mt SL ST Mr SLr STr Base eq_refl) as (o1 & secs & secs' & S1 & S2).
        exists nm', o. eapply pf_html; eassumption.
      + assert (X : has_ext nm' (lit "md")).
        { assert (St : stands (ready_as h ps pr0) nm' (EFile b) (NFile nm' b0 (PMarkdown m) m0 s0)) by (constructor; [exact R|reflexivity|reflexivity]).
          eapply proj1. eapply not_post; [exact St|reflexivity]. }
        destruct (post_back ks (ch :: anc) nm' b _ A Sc R X) as (m1 & s & v & En & Mv & Po). injection En as -> <- -> ->.
        assert (Fm := inside_scalar _ _ Fine' (spine_inside _ _ _ _ _ Sc)). cbn in Fm. destruct Fm as [[_ Fm] _].
        cbn [render_page] in RP. unfold process_markdown in RP. cbn [ev_root ev_md] in RP. destruct root' as [rt|]; cbn [ok_or bind] in RP; [|discriminate RP].
        destruct md' as [mt|]; cbn [ok_or bind] in RP; [|discriminate RP]. cbn [pr1 build_pr pr_base] in RP. rewrite Mv in RP. cbn [bind] in RP. fold pr1 in RP.
        destruct (two_phases _ _ _ _ _ _) as [o| | |] eqn:Tw; cbn [bind] in RP; try discriminate RP.
        destruct (template_back _ _ root_ext _ _ _ _ _ Sp T1) as (lr & Tr & Mr & SLr & STr). destruct (template_back _ _ md_ext _ _ _ _ _ Sp T2) as (lm & Tm & Mm & SLm & STm).
        destruct (two_back _ _ _ _ lm lr _ Tw Mm SLm STm Mr SLr STr) as (o1 & secs & secs' & S1 & S2); [|reflexivity|].
        { cbn [fr_vars add_var]. apply Forall_app. split; [exact Base|]. constructor; [|constructor]. cbn [snd]. exact (md_value_scalar (E := process_error) _ _ Fm (Mv _)). }
        destruct (N2 _ _ eq_refl) as (stem & -> & ->). exists (stem ++ lit ".html"), o. eapply pf_md; try eassumption.
        destruct X as (st & Es & Ne & _). intros ->. apply Ne. apply (app_inv_tail (lit ".md")). symmetry. exact Es.
    - exfalso. destruct R as (n0 & (p & L) & P). destruct (create_file_kind _ _ _ _ _ _ L) as (pc & -> & K).
      destruct K as [(_ & t & ->)|[(_ & m & -> & _)|[(_ & v & ->)|[(? & ? & ? & _ & _ & _ & _ & In1 & _ & _)|(-> & _)]]]]; try (rewrite Parsers in In1; destruct In1).
      all: cbn [preprocess] in P; try discriminate P. destruct (map_err _ _); cbn [bind] in P; discriminate P.
    - cbn [n_name]. exists nm', b. apply pf_copy. destruct Q' as [Q'|Q']; [now left|].
      destruct R as (n0 & (p & L) & P). destruct (create_file_kind _ _ _ _ _ _ L) as (pc & -> & K).
      destruct K as [(_ & t & ->)|[(_ & m & -> & _)|[(X & v & ->)|[(? & ? & ? & _ & _ & _ & _ & In1 & _ & _)|(-> & K)]]]]; try (rewrite Parsers in In1; destruct In1).
      + exfalso. cbn in P. inversion P; subst. destruct Q' as [[w Q']|[Q'|Q']]; discriminate Q'.
      + exfalso. cbn [preprocess] in P. destruct (map_err _ _); cbn [bind] in P; try discriminate P. inversion P; subst. destruct Q' as [[w Q']|[Q'|Q']]; discriminate Q'.
      + right; left. exact X.
      + right; right. split; [intros X; now destruct (K _ X)|]. split; [intros X; now destruct (K _ X) as (_ & Y & _)|]. intros e np X. now apply (K _ X).
  Qed.
End Site.

(** ** Sites *)
Lemma build_output h osenv mode d st : snd (build h osenv mode d st) = Ok tt -> exists out, st_output (fst (build h osenv mode d st)) = Some out.
Proof.
  unfold build. destruct (node_new _ _ _ _ _ _) as [input|y|q|]; cbn [snd]; try discriminate.
  destruct (preprocess _ input) as [input'|y|q|]; cbn [snd]; try discriminate.
  destruct (build_tree _ _ _ _) as [[i o]|y|q|]; cbn [snd fst st_output]; try discriminate. intros _. now exists o.
Qed.
Lemma build_needs_order h osenv mode d st content : sd_ent d = Some content -> plain_site h (st_plugins st) osenv mode content ->
  snd (build h osenv mode d st) = Ok tt -> site_in_order h (st_plugins st) (page_vars osenv mode) content.
Proof.
  intros Sd (Di & Lay & Pa & Ho & Fn & Se & Sm) B. unfold build in B. rewrite Sd in B.
  destruct (node_new _ _ _ _ _ _) as [input|y|q|] eqn:N; cbn [snd] in B; try discriminate B.
  set (vars := build_vars osenv mode) in *. destruct (preprocess _ input) as [input'|y|q|] eqn:P; cbn [snd] in B; try discriminate B.
  destruct (build_tree _ _ _ _) as [[i out]|y|q|] eqn:T; cbn [snd] in B; try discriminate B. clear B.
  destruct content as [b0|l|]; cbn [node_new] in N; try discriminate N.
  assert (Base : scalar_frame (base_frame vars)).
  { split; [|apply utf8_nil]. cbn. constructor; [|constructor]. cbn [snd]. constructor. apply Forall_map. unfold vars, build_vars. apply Forall_app. split.
    - revert Se. apply Forall_impl. intros kv S. now constructor.
    - constructor; [now constructor|constructor]. }
  assert (Pa' : forall np, In np (flat_map pl_parsers (st_plugins st)) -> html_parser np) by (rewrite Pa; intros np []).
  assert (F := create_fine _ _ Ho Fn Pa' _ _ _ _ N). assert (F' := fun H1 H2 H3 => preprocess_fine h Ho _ _ _ H1 H2 H3 (fine_site _ F) Base _ _ F P).
  specialize (F' eq_refl eq_refl eq_refl). assert (Hin := create_stands _ _ _ _ _ _ N).
  assert (M : mirror (publishes (build_pr h (cf_meta (st_config st)) vars input') vars) [] input' out).
  { unfold build_tree in T. fold (build_pr h (cf_meta (st_config st)) vars input) in T. unfold build_pr in T at 1. rewrite P in T. cbn [bind] in T.
    destruct input' as [|nm ch src]; [discriminate|]. cbn [n_children] in T.
    match goal with H : bind ?x _ = _ |- _ => destruct x as [o2|x'|q|] eqn:B end; cbn [bind] in T; try discriminate. injection T as <- <-. now apply build_top in B. }
  split; [now exists l|]. split.
  - intros ks A. destruct (stands_at _ _ _ _ A _ _ [] Hin) as (anc & n & name & _ & S). inversion S.
  - intros ks name b A. eapply (file_back h (st_plugins st) (cf_meta (st_config st)) osenv mode (EDir l) input input' (sd_name d)); try eassumption; [apply Base|now exists l].
Qed.
Lemma build_exactly h osenv mode d st content : sd_ent d = Some content -> plain_site h (st_plugins st) osenv mode content ->
  (snd (build h osenv mode d st) = Ok tt <-> site_in_order h (st_plugins st) (page_vars osenv mode) content).
Proof. intros Sd P. split; [now apply build_needs_order|]. apply site_builds; [exact Sd|apply P]. Qed.
Lemma build_pages h osenv mode d st content out : sd_ent d = Some content -> plain_site h (st_plugins st) osenv mode content ->
  snd (build h osenv mode d st) = Ok tt -> st_output (fst (build h osenv mode d st)) = Some out ->
  forall ks k b, (exists pc m s, at_names out (ks ++ [k]) (NFile k b pc m s)) <-> published h (st_plugins st) (page_vars osenv mode) content ks k b.
Proof. intros Sd P B O. eapply site_files; try eassumption; [apply P|]. eapply build_needs_order; eassumption. Qed.
Lemma project_needs_order m f c d c' d' d1 content : cli_build m f c d = (c', d', COk) -> ran (m_script m) (cx_pre c) d d1 ->
  lookup (cx_dir c ++ [lit "content"]) d1 = Some content ->
  plain_site (m_host m) (st_plugins (cx_stuart c)) (m_osenv m) (cx_mode c) content ->
  site_in_order (m_host m) (st_plugins (cx_stuart c)) (page_vars (m_osenv m) (cx_mode c)) content.
Proof.
  intros B R L P. destruct (build_saved _ _ _ _ _ _ B) as (d1' & st & d3 & d4 & out' & R1 & BM & _).
  assert (d1' = d1) by (apply run_scripts_ran in R, R1; congruence). subst d1'.
  destruct (merged_kept _ _ _ _ BM) as (out0 & out2 & B1 & _). eapply build_needs_order; [|exact P|exact B1]. exact L.
Qed.
Lemma project_exactly m c d content statics : cx_pre c = [] -> cx_post c = [] -> cf_meta (st_config (cx_stuart c)) = false ->
  lookup (cx_dir c ++ [lit "content"]) d = Some content ->
  lookup (cx_dir c ++ [lit "static"]) d = Some statics \/ (lookup (cx_dir c ++ [lit "static"]) d = None /\ statics = EDir []) ->
  lookup (cx_dir c ++ [lit "temp"]) d = None ->
  ent_distinct d -> inward_project c d -> static_in_order statics ->
  no_conflict (m_host m) (st_plugins (cx_stuart c)) (page_vars (m_osenv m) (cx_mode c)) content statics ->
  no_overlap (m_host m) (st_plugins (cx_stuart c)) (page_vars (m_osenv m) (cx_mode c)) content (st_config (cx_stuart c)) statics ->
  output_dir c <> [] -> what (parent (output_dir c)) d = KDir -> what (output_dir c) d = KNone \/ what (output_dir c) d = KDir ->
  plain_site (m_host m) (st_plugins (cx_stuart c)) (m_osenv m) (cx_mode c) content ->
  (snd (cli_build m no_faults c d) = COk <->
   site_in_order (m_host m) (st_plugins (cx_stuart c)) (page_vars (m_osenv m) (cx_mode c)) content).
Proof.
  intros EP EQ EM LC LS LT D IP SO NC NO NE PD W PS. split; intros H.
  - destruct (cli_build m no_faults c d) as [[c' d'] r] eqn:B. cbn [snd] in H. subst r. eapply project_needs_order; [exact B| |exact LC|exact PS]. rewrite EP. constructor.
  - destruct (project_built m c d content statics) as (c' & d' & -> & _); try assumption. reflexivity.
Qed.

(** ** Deciding whether a file is laid out *)
Fixpoint uncalled (b : block) : bool :=
  match b with
  | BPlugin _ => false
  | BSection _ body | BFor _ body | BIf _ body => forallb uncalled body
  | BIfElse _ yes no => forallb uncalled yes && forallb uncalled no
  | _ => true
  end.
Lemma uncalled_tags b : uncalled b = true -> forall p, ~ In (TFun (FPlugin p)) (tags b).
Proof.
  assert (L : forall l, Forall (fun b => uncalled b = true -> forall p, ~ In (TFun (FPlugin p)) (tags b)) l -> forallb uncalled l = true -> forall p, ~ In (TFun (FPlugin p)) (flat_map tags l)).
  { intros l H U p I. apply in_flat_map in I. destruct I as (b0 & I1 & I2). rewrite Forall_forall in H. rewrite forallb_forall in U. exact (H b0 I1 (U b0 I1) p I2). }
  induction b as [b S|p|label body IH|f body IH|c yes IH|c yes no IH1 IH2] using block_ind2; intros U q I; cbn [tags uncalled] in *.
  - destruct b; try contradiction; destruct I as [I|[]]; discriminate I.
  - discriminate U.
  - destruct I as [I|I]; [discriminate I|]. apply in_app_or in I as [I|[I|[]]]; [exact (L _ IH U q I)|discriminate I].
  - destruct I as [I|I]; [discriminate I|]. apply in_app_or in I as [I|[I|[]]]; [exact (L _ IH U q I)|discriminate I].
  - destruct I as [I|I]; [destruct c; discriminate I|]. apply in_app_or in I as [I|[I|[]]]; [exact (L _ IH U q I)|discriminate I].
  - apply andb_prop in U. destruct U as [U1 U2]. destruct I as [I|I]; [destruct c; discriminate I|].
    apply in_app_or in I as [I|[I|I]]; [exact (L _ IH1 U1 q I)|discriminate I|]. apply in_app_or in I as [I|[I|[]]]; [exact (L _ IH2 U2 q I)|discriminate I].
Qed.
Lemma uncalled_named b : uncalled b = true -> named_calls b.
Proof.
  induction b as [b S|p|label body IH|f body IH|c yes IH|c yes no IH1 IH2] using block_ind2; intros U; cbn [named_calls uncalled] in *; try exact Logic.I; try discriminate U.
  - destruct b; try contradiction; exact Logic.I.
  - induction IH as [|b0 l H F IH]; [exact Logic.I|]. cbn [forallb] in U. apply andb_prop in U. destruct U. split; auto.
Qed.
Lemma uncalled_all_named l : forallb uncalled l = true -> Forall named_calls l.
Proof. intros U. apply Forall_forall. intros b I. rewrite forallb_forall in U. now apply uncalled_named, U. Qed.
Lemma uncalled_careful b : uncalled b = true -> careful b.
Proof.
  assert (L : forall l, Forall (fun b => uncalled b = true -> careful b) l -> forallb uncalled l = true -> all_careful l).
  { intros l H U. apply all_careful_forall, Forall_forall. intros b0 I. rewrite Forall_forall in H. rewrite forallb_forall in U. auto. }
  induction b as [b S|p|label body IH|f body IH|c yes IH|c yes no IH1 IH2] using block_ind2; intros U; cbn [careful uncalled] in *; try exact Logic.I.
  - destruct b; try contradiction; exact Logic.I.
  - exact (L _ IH U).
  - exact (L _ IH U).
  - split; [now apply uncalled_all_named|exact (L _ IH U)].
  - apply andb_prop in U. destruct U as [U1 U2]. split; [now apply uncalled_all_named|]. split; [now apply uncalled_all_named|]. split; [exact (L _ IH1 U1)|exact (L _ IH2 U2)].
Qed.
Lemma uncalled_orderly l : forallb single_loops l && forallb uncalled l = true -> orderly l.
Proof.
  intros H. apply andb_prop in H. destruct H as [H1 H2]. split; [exact H1|]. split; [apply Forall_forall; intros b I; rewrite forallb_forall in H2; now apply uncalled_careful, H2|]. intros p I. apply in_flat_map in I. destruct I as (b & I1 & I2).
  rewrite forallb_forall in H2. destruct (uncalled_tags b (H2 b I1) p I2).
Qed.
Lemma laid_html_calls h ps name b l : has_ext name (lit "html") ->
  match from_utf8 b with
  | Some t => match parse_html (h_ext h) (fns ps) [] t with Ok toks => map t_inner toks = flat_map tags l | _ => False end
  | None => False
  end -> orderly l ->
  forall t s ts, utf8_text b t -> template_text name t s -> SpecGrammar.means (h_ext h) (map (fun p => (pl_name p, pl_fns p)) ps) s ts ->
  exists l, ts = flat_map tags l /\ orderly l.
Proof.
  intros X M S t s ts U T Me. apply decoding in U. rewrite U in M. destruct (parse_html (h_ext h) (fns ps) [] t) as [toks| | |] eqn:P; try contradiction.
  destruct T as [[_ ->]|[Y _]]; [|discriminate (has_ext_unique _ _ _ X Y)]. exists l. split; [|exact S]. rewrite <- M. eapply one_meaning; [exact Me|]. apply (parse_means _ _ []). now exists toks.
Qed.
Lemma laid_html h ps name b l : has_ext name (lit "html") ->
  match from_utf8 b with
  | Some t => match parse_html (h_ext h) (fns ps) [] t with Ok toks => map t_inner toks = flat_map tags l | _ => False end
  | None => False
  end -> forallb single_loops l && forallb uncalled l = true ->
  forall t s ts, utf8_text b t -> template_text name t s -> SpecGrammar.means (h_ext h) (map (fun p => (pl_name p, pl_fns p)) ps) s ts ->
  exists l, ts = flat_map tags l /\ orderly l.
Proof. intros X M S. eapply laid_html_calls; [exact X|exact M|now apply uncalled_orderly]. Qed.
Lemma laid_md_calls h ps name b l : has_ext name (lit "md") ->
  match from_utf8 b with
  | Some t => match parse_markdown (h_ext h) (fns ps) [] t with Ok m => map t_inner (md_tokens m) = flat_map tags l | _ => False end
  | None => False
  end -> orderly l ->
  forall t s ts, utf8_text b t -> template_text name t s -> SpecGrammar.means (h_ext h) (map (fun p => (pl_name p, pl_fns p)) ps) s ts ->
  exists l, ts = flat_map tags l /\ orderly l.
Proof.
  intros X M S t s ts U T Me. apply decoding in U. rewrite U in M. destruct (parse_markdown (h_ext h) (fns ps) [] t) as [m| | |] eqn:P; try contradiction.
  destruct T as [[Y _]|[_ [fm Q]]]; [discriminate (has_ext_unique _ _ _ X Y)|]. exists l. split; [|exact S]. rewrite <- M.
  rewrite (parts_parse _ _ _ _ _ _ Q) in P. unfold md_result in P. destruct (parse_html _ _ _ _) as [toks| | |] eqn:PH; cbn [bind map_err] in P; try discriminate P. injection P as <-. cbn [md_tokens].
  eapply one_meaning; [exact Me|]. apply (parse_means _ _ []). now exists toks.
Qed.
Lemma laid_md h ps name b l : has_ext name (lit "md") ->
  match from_utf8 b with
  | Some t => match parse_markdown (h_ext h) (fns ps) [] t with Ok m => map t_inner (md_tokens m) = flat_map tags l | _ => False end
  | None => False
  end -> forallb single_loops l && forallb uncalled l = true ->
  forall t s ts, utf8_text b t -> template_text name t s -> SpecGrammar.means (h_ext h) (map (fun p => (pl_name p, pl_fns p)) ps) s ts ->
  exists l, ts = flat_map tags l /\ orderly l.
Proof. intros X M S. eapply laid_md_calls; [exact X|exact M|now apply uncalled_orderly]. Qed.
Lemma laid_other h ps name b : ~ has_ext name (lit "html") -> ~ has_ext name (lit "md") ->
  forall t s ts, utf8_text b t -> template_text name t s -> SpecGrammar.means (h_ext h) (map (fun p => (pl_name p, pl_fns p)) ps) s ts ->
  exists l, ts = flat_map tags l /\ orderly l.
Proof. intros X Y t s ts _ [[T _]|[T _]]; contradiction. Qed.

(** ** Functions written in JavaScript *)
Lemma js_set_forall (P : jsv -> Prop) k v l : P v -> Forall (fun kv => P (snd kv)) l -> Forall (fun kv => P (snd kv)) (js_set l k v).
Proof.
  intros V F. unfold js_set. destruct (text_eqb _ _); [exact F|]. destruct (has_key k l).
  - clear - V F. induction F as [|[k' v'] l X F IH]; cbn [replace_key]; [constructor|]. destruct (text_eqb k' k); now constructor.
  - destruct (array_index k) as [n|]; [|apply Forall_app; split; [exact F|]; constructor; [exact V|constructor]].
    induction F as [|[k' v'] l X F IH]; cbn [insert_index]; [constructor; [exact V|constructor]|].
    destruct (array_index k') as [n'|]; [destruct (n' <? n)%N|]; constructor; auto.
Qed.
Lemma scalar_to_js v : scalar_value v -> scalar_js (json_to_js v).
Proof.
  induction v as [|b|x|t|l IH|l IH] using JsFacts.value_ind2; intros Sv; cbn [json_to_js]; inversion Sv as [| | |? T|? F|? F]; subst; try (now constructor).
  - constructor. apply Forall_map. rewrite Forall_forall in *. auto.
  - constructor. assert (A : Forall (fun kv : text * jsv => scalar_js (snd kv)) []) by constructor. revert A. generalize (@nil (text * jsv)) as acc. clear Sv.
    induction l as [|[k v] l IHl]; intros acc A; cbn [map fold_left]; [exact A|]. inversion IH; subst. inversion F; subst. apply IHl; [assumption|assumption|]. apply js_set_forall; [|exact A]. cbn [fst snd] in *. auto.
Qed.
Lemma scalar_of_js j : scalar_js j -> forall y, js_to_json j = Ok (Some y) -> scalar_value y.
Proof.
  induction j as [| | |b|x|t|l IH|l IH] using jsv_ind2; intros Sj y E; cbn [js_to_json] in E; inversion Sj; subst; try discriminate E; try (injection E as <-; now constructor).
  - destruct (map_res _ l) as [vs| | |] eqn:M; cbn [bind] in E; try discriminate E. injection E as <-. constructor.
    match goal with H : Forall scalar_js l |- _ => clear Sj; revert vs M; induction H as [|j l J F IHl] end; intros vs M; cbn [map_res] in M; [injection M as <-; constructor|].
    inversion IH; subst. destruct (js_to_json j) as [[y|]| | |] eqn:Q; cbn [bind] in M; try discriminate M.
    match type of M with (let? _ := ?m in _) = _ => destruct m as [ys| | |] eqn:M2 end; cbn [bind] in M; try discriminate M. injection M as <-. constructor; auto.
  - destruct (map_res _ l) as [vs| | |] eqn:M; cbn [bind] in E; try discriminate E. injection E as <-. constructor.
    match goal with H : Forall _ l |- _ => idtac end.
    match goal with H : Forall (fun kv => scalar_js (snd kv)) l |- _ => clear Sj; revert vs M; induction H as [|[k j] l J F IHl] end; intros vs M; cbn [map_res fst snd] in M; [injection M as <-; constructor|].
    inversion IH; subst. cbn [snd] in *. destruct (js_to_json j) as [[y|]| | |] eqn:Q; cbn [bind] in M; try discriminate M.
    match type of M with (let? _ := ?m in _) = _ => destruct m as [ys| | |] eqn:M2 end; cbn [bind] in M; try discriminate M. injection M as <-. constructor; [cbn [snd]; auto|]. auto.
Qed.
Definition scalar_scopes (sc : scopes) : Prop := Forall (Forall (fun kv => scalar_value (snd kv))) sc.
Lemma scopes_frames sc : scalar_scopes sc -> Forall scalar_frame (frames sc).
Proof. induction 1 as [|vs sc V F IH]; [constructor|]. constructor; [split; [exact V|exact utf8_nil]|exact IH]. Qed.
Lemma js_effect_scalar p : scalar_prog p -> forall sc new t, scalar_scopes sc -> js_effect p sc = Ok (new, t) -> Forall (fun kv => scalar_value (snd kv)) new.
Proof.
  induction 1 as [t0 T0|n k K IH|n v p V P IH]; intros sc new t Sc E; cbn [js_effect] in E.
  - injection E as <- <-. constructor.
  - eapply IH; [|exact Sc|exact E]. destruct (get_variable n (frames sc)) as [v|] eqn:G; cbn [opt_to_js]; [|constructor]. apply scalar_to_js. eapply scalar_variable; [apply scopes_frames; exact Sc|exact G].
  - destruct (js_to_json v) as [[y|]| | |] eqn:J; try discriminate E; [|eapply IH; eassumption]. apply scalar_of_js in J; [|exact V].
    destruct (js_effect p _) as [[new' t']| | |] eqn:Q; try discriminate E. injection E as <- <-. constructor; [exact J|]. eapply IH; [|exact Q].
    destruct sc as [|vs r]; [exact Sc|]. inversion Sc; subst. constructor; [|assumption]. apply Forall_app. split; [assumption|]. now repeat constructor.
Qed.
Lemma conj_args args : forall sc vs, (forall t, In (AStr t) args -> scalars t) -> map_res (js_given sc) args = Ok vs -> scalar_scopes sc -> Forall scalar_js vs.
Proof.
  induction args as [|a args IH]; intros sc vs A M Sc; cbn [map_res] in M; [injection M as <-; constructor|].
  destruct (js_given sc a) as [v| | |] eqn:G; cbn [bind] in M; try discriminate M.
  match type of M with (let? _ := ?m in _) = _ => destruct m as [ys| | |] eqn:M2 end; cbn [bind] in M; try discriminate M. injection M as <-. constructor.
  - destruct a as [n|t|z|t]; cbn [js_given] in G; try discriminate G; [|injection G as <-; constructor; apply A; now left|injection G as <-; constructor].
    destruct (get_variable n (frames sc)) as [x|] eqn:V; [|discriminate G]. injection G as <-. apply scalar_to_js. eapply scalar_variable; [apply scopes_frames; exact Sc|exact V].
  - eapply IH; [|exact M2|exact Sc]. intros t I. apply A. now right.
Qed.
Lemma call_args r : scalar_call r -> forall t, In (AStr t) (rf_pos r) -> scalars t.
Proof. intros (_ & F & _) t I. rewrite Forall_forall in F. exact (F _ I). Qed.
Lemma js_tame name code r p : pp_parse (js_plugin_parser name code) r = inr p -> scalar_call r ->
  (forall vs, Forall scalar_js vs -> scalar_prog (code vs)) -> tame p.
Proof.
  intros E A C. injection E as <-. split; [discriminate|]. split; [discriminate|]. exists (js_beh code (rf_pos r)). split; [apply js_acts|]. split; [intros l l' sc secs x E; exact E|].
  intros lp sc secs o new Sc E. unfold js_beh in E. destruct (map_res _ _) as [vs| | |] eqn:M; cbn [bind] in E; try discriminate E.
  destruct (js_effect _ _) as [[nw t]| | |] eqn:Q; cbn [bind] in E; try discriminate E. injection E as _ <-. cbn [fst]. apply (js_effect_scalar _ (C vs (conj_args _ _ _ (call_args r A) M Sc)) _ _ _ Sc Q).
Qed.
Lemma js_run_scalar p : scalar_prog p -> forall s s' t, scalar_scope s -> js_run p s = Ok (s', t) -> scalar_scope s' /\ forall x, t = Some x -> scalars x.
Proof.
  induction 1 as [t0 T0|n k K IH|n v p V P IH]; intros s s' t Sc E; cbn [js_run] in E.
  - injection E as <- <-. now split.
  - eapply IH; [|exact Sc|exact E]. destruct (get_variable n (sc_stack s)) as [v|] eqn:G; cbn [opt_to_js]; [|constructor]. apply scalar_to_js. eapply scalar_variable; [apply Sc|exact G].
  - destruct (js_to_json v) as [[y|]| | |] eqn:J; try discriminate E; [|eapply IH; eassumption]. apply scalar_of_js in J; [|exact V].
    destruct (sc_stack s) as [|f r] eqn:ST; [discriminate E|]. eapply IH; [|exact E]. destruct Sc as [S1 S2]. rewrite ST in S1. inversion S1 as [|? ? [F1 F2] F3]; subst.
    split; [|exact S2]. constructor; [|exact F3]. split; [|exact F2]. cbn [add_var fr_vars]. apply Forall_app. split; [exact F1|]. now repeat constructor.
Qed.
Lemma js_scalar_fn name code r p : pp_parse (js_plugin_parser name code) r = inr p -> scalar_call r ->
  (forall vs, Forall scalar_js vs -> scalar_prog (code vs)) -> scalar_plugin p.
Proof.
  intros E A C. injection E as <-. intros l s s' Sc E. cbn [pf_exec] in E. unfold js_exec in E. rewrite js_given_arg in E.
  destruct (map_res _ _) as [vs| | |] eqn:M; cbn [map_err bind] in E; try discriminate E.
  destruct (js_run (code vs) s) as [[s1 t]| | |] eqn:R; cbn [bind fst snd] in E; try discriminate E.
  assert (Vs : Forall scalar_js vs).
  { eapply conj_args; [exact (call_args r A)|exact M|]. destruct Sc as [Sc _]. clear - Sc. induction Sc as [|f st [F _] Sc IH]; constructor; assumption. }
  destruct (js_run_scalar _ (C vs Vs) _ _ _ Sc R) as [S1 T1]. destruct t as [t|]; [|injection E as <-; exact S1].
  destruct (sc_stack s1) as [|f st] eqn:ST; unfold output in E; rewrite ST in E; [discriminate E|]. injection E as <-.
  destruct S1 as [S1 S2]. rewrite ST in S1. inversion S1 as [|? ? [F1 F2] F3]; subst. split; [|exact S2]. constructor; [|exact F3]. split; [exact F1|].
  cbn [add_out fr_out]. apply utf8_app; [exact F2|]. apply Utf8Run.utf8_enc. now apply T1.
Qed.
