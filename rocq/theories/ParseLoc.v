(** ParseLoc.v -- where parse errors are reported, and why (parse/parser.rs, parse/mod.rs). *)

From Coq Require Import String List NArith ZArith Bool Lia.
From Coq Require Import ZifyBool ZifyNat ZifyN.
From Verif Require Import Text TextFacts CharFacts Base Lexer LexerFacts Syntax Parse SpecTemplate SpecLocation
  EscapeFacts CallFacts ParseFacts ParseInv ParseErr.
Import ListNotations.
Local Open Scope N_scope.

Definition at_pos {K} (file : path) (pos : N * N) (k : K) : traceback K := TB file (fst pos) (snd pos) k.
Lemma traceback_state file pre rest e : p_traceback file (state_at pre rest) e = at_pos file (last_position pre) e.
Proof.
  unfold p_traceback, at_pos. rewrite <- (location_state pre rest). reflexivity.
Qed.

Lemma p_expect_err file s pre cs e : p_expect file s (state_at pre cs) = Err e ->
  (exists y, s = cs ++ y /\ y <> [] /\ e = at_pos file (last_position (pre ++ cs)) PE_UnexpectedEOF) \/
  (exists x d y c left, s = x ++ d :: y /\ cs = x ++ c :: left /\ c <> d /\
     e = at_pos file (last_position (pre ++ x ++ [c])) (PE_Expected s)).
Proof.
  unfold p_expect.
  assert (G : forall s' pre cs, p_expect_aux file s s' (state_at pre cs) = Err e ->
    (exists y, s' = cs ++ y /\ y <> [] /\ e = at_pos file (last_position (pre ++ cs)) PE_UnexpectedEOF) \/
    (exists x d y c left, s' = x ++ d :: y /\ cs = x ++ c :: left /\ c <> d /\
       e = at_pos file (last_position (pre ++ x ++ [c])) (PE_Expected s))).
  { clear. induction s' as [|a s' IH]; intros pre cs H; cbn [p_expect_aux] in H; [discriminate|].
    destruct cs as [|c cs].
    - cbn in H. rewrite traceback_state in H. injection H as <-. left. exists (a :: s'). rewrite app_nil_r. repeat split; discriminate.
    - rewrite p_next_state in H. destruct (N.eqb_spec a c) as [->|Hc].
      + apply IH in H. destruct H as [(y & -> & Hy & ->)|(x & d & y & c0 & left & -> & -> & Hd & ->)].
        * left. exists y. rewrite <- app_assoc. auto.
        * right. exists (c :: x), d, y, c0, left. rewrite <- app_assoc. auto.
      + right. exists [], a, s', c, cs. rewrite traceback_state in H. injection H as <-. cbn [app]. auto. }
  apply G.
Qed.

Lemma rawarg_parse_err ext a e : rawarg_parse ext a = Err e -> argument_error e.
Proof.
  unfold rawarg_parse. destruct (strip_prefix [c_dollar] a) as [v|].
  - destruct (forallb _ v); [discriminate|]. intros H; injection H as <-. constructor.
  - destruct (starts_with [c_quote] a && ends_with [c_quote] a).
    + destruct (strip_prefix [c_quote] a) as [r|]; [|discriminate]. destruct (strip_suffix [c_quote] r) as [s|]; [|discriminate].
      destruct (contains_char c_quote s); [|discriminate]. intros H; injection H as <-. constructor.
    + destruct (parse_i32 a); [discriminate|]. destruct (is_ident a); [discriminate|].
      intros H; injection H as <-. constructor.
Qed.
Lemma add_arg_err ext file pre rest arg pos named e : add_arg ext file (state_at pre rest) arg pos named = Err e ->
  exists k, e = at_pos file (last_position pre) k /\ argument_error k.
Proof.
  unfold add_arg. destruct (_ && _).
  - destruct (splitn2 c_eq arg) as [n [v|]].
    + destruct (_ || _).
      * intros H; injection H as <-. rewrite traceback_state. eexists. split; [reflexivity|constructor].
      * destruct (rawarg_parse ext v) as [x|k| |] eqn:R; cbn [map_err bind]; try discriminate.
        intros H; injection H as <-. rewrite traceback_state. eexists. split; [reflexivity|]. now apply rawarg_parse_err in R.
    + intros H; injection H as <-. rewrite traceback_state. eexists. split; [reflexivity|constructor].
  - destruct arg as [|c arg]; [discriminate|]. destruct named as [|kv named].
    + destruct (rawarg_parse ext (c :: arg)) as [x|k| |] eqn:R; cbn [map_err bind]; try discriminate.
      intros H; injection H as <-. rewrite traceback_state. eexists. split; [reflexivity|]. now apply rawarg_parse_err in R.
    + intros H; injection H as <-. rewrite traceback_state. eexists. split; [reflexivity|constructor].
Qed.

Lemma parse_args_err ext file fuel : forall pre cs pos named e,
  parse_args fuel ext file (state_at pre cs) pos named = Err e ->
  exists args left k, cs = args ++ left /\ e = at_pos file (last_position (pre ++ args)) k /\
    ((k = PE_UnexpectedEOF /\ left = []) \/
     (argument_error k /\ (left = [] \/ starts (fun c => existsb (N.eqb c) (lit ",)")) left))).
Proof.
  induction fuel as [|fuel IH]; intros pre cs pos named e; [discriminate|].
  cbn [parse_args]. rewrite ignore_while_span, extract_while_st_span.
  destruct (span1_spec is_whitespace cs) as (E1 & Hw & _).
  set (w := fst (span1 is_whitespace cs)) in *. set (cs1 := snd (span1 is_whitespace cs)) in *.
  pose proof (span_app arg_pred false cs1) as E2.
  pose proof (span_arg_stop cs1 false) as Hstop.
  set (raw := fst (span arg_pred false cs1)) in *. set (cs2 := snd (span arg_pred false cs1)) in *.
  clearbody w cs1 raw cs2. subst cs cs1.
  destruct (add_arg ext file (state_at ((pre ++ w) ++ raw) cs2) (trim raw) pos named) as [[pos' named']|x| |] eqn:EA; cbn [bind]; try discriminate.
  - destruct cs2 as [|c cs3].
    + change (p_next (state_at ((pre ++ w) ++ raw) [])) with (@None (char * parser)). intros H; injection H as <-. rewrite traceback_state.
      exists (w ++ raw), [], PE_UnexpectedEOF. rewrite !app_nil_r, <- app_assoc. auto.
    + rewrite p_next_state. specialize (Hstop c cs3 eq_refl).
      destruct (N.eqb_spec c c_rparen) as [->|Hc1]; [discriminate|].
      destruct (N.eqb_spec c c_comma) as [->|Hc2]; [|exfalso; tauto].
      intros H. apply IH in H. destruct H as (args & left & k & -> & -> & H).
      exists (w ++ raw ++ [c_comma] ++ args), left, k. split; [now rewrite <- !app_assoc|]. split; [now rewrite <- !app_assoc|exact H].
  - intros H; injection H as <-. apply add_arg_err in EA. destruct EA as (k & -> & Hk).
    exists (w ++ raw), cs2, k. split; [now rewrite <- app_assoc|]. split; [now rewrite <- app_assoc|].
    right. split; [exact Hk|]. destruct cs2 as [|c cs3]; [now left|right].
    exists c, cs3. split; [reflexivity|]. destruct (Hstop c cs3 eq_refl) as [->| ->]; reflexivity.
Qed.

Lemma resolve_none plugins r : resolve plugins r = Err None -> unknown plugins (rf_name r).
Proof.
  unfold resolve. destruct (find_builtin (rf_name r) function_parsers) as [b|] eqn:B.
  - destruct (builtin_parse b r); discriminate.
  - pose proof (find_plugin_spec (rf_name r) plugins) as H. destruct (find_plugin (rf_name r) plugins) as [f|].
    + destruct (pp_parse f r); discriminate.
    + intros _. rewrite Forall_forall in H. split; [|intros p f I; exact (H (p, f) I)]. rewrite builtin_names_eq. now apply find_builtin_none.
Qed.
Lemma resolve_some plugins r e : resolve plugins r = Err (Some e) -> ~ unknown plugins (rf_name r).
Proof.
  intros H [Hb Hp]. unfold resolve in H. rewrite builtin_names_eq in Hb. apply find_builtin_none in Hb. rewrite Hb in H.
  pose proof (find_plugin_spec (rf_name r) plugins) as F. destruct (find_plugin (rf_name r) plugins) as [f|]; [|discriminate].
  destruct F as (l1 & p & l2 & E & Ha & _). apply (Hp p f); [|exact Ha]. rewrite E. apply in_app_iff. right. now left.
Qed.

Lemma not_starts_white t : match t with [] => True | c :: _ => is_whitespace c = false end -> ~ starts white t.
Proof. intros H (c & r & -> & W). rewrite white_ws in W. congruence. Qed.

(** An error of a variable tag or a call whose first character is not white. *)
Lemma parse_function_mistake ext plugins file pre w cs c0 r0 e : blank w -> cs = c0 :: r0 -> is_whitespace c0 = false -> c0 <> c_dollar ->
  parse_function ext plugins file (state_at (pre ++ w) cs) = Err e ->
  exists seen left k, w ++ cs = seen ++ left /\ e = at_pos file (last_position (pre ++ seen)) k /\ mistake ext plugins seen left k.
Proof.
  intros Bw Hcs W0 D0. unfold parse_function. pose proof (location_state (pre ++ w) cs) as HL.
  destruct (location (state_at (pre ++ w) cs)) as [line col].
  rewrite extract_while_span. destruct (span1_spec (fun_char ext) cs) as (E1 & Hn & Hs1).
  set (name := fst (span1 (fun_char ext) cs)) in *. set (cs1 := snd (span1 (fun_char ext) cs)) in *.
  clearbody name cs1. destruct name as [|c1 name0].
  { intros H; injection H as <-. rewrite app_nil_r, traceback_state. exists w, cs. eexists. split; [reflexivity|]. split; [reflexivity|].
    cbn [app] in E1. subst cs1. rewrite Hcs in *. constructor; auto; [rewrite white_ws; exact W0|rewrite fun_point_char; exact Hs1]. }
  set (name := c1 :: name0) in *.
  rewrite ignore_while_span. destruct (span1_spec is_whitespace cs1) as (E2 & Hw & _).
  set (w1 := fst (span1 is_whitespace cs1)) in *. set (cs2 := snd (span1 is_whitespace cs1)) in *.
  clearbody w1 cs2.
  assert (HH : call_head ext name (name ++ w1)).
  { exists w1. split; [discriminate|]. split; [now rewrite fun_name|]. split; auto. }
  destruct (p_expect file [c_lparen] (state_at (((pre ++ w) ++ name) ++ w1) cs2)) as [p'|x| |] eqn:E; cbn [bind]; try discriminate.
  2:{ intros H; injection H as <-. apply p_expect_err in E. destruct E as [(y & Ey & Hy & ->)|(x0 & d & y & c & left & Es & Ec & Hc & ->)].
      - destruct cs2 as [|? [|]]; cbn in Ey; try discriminate.
        + exists (w ++ name ++ w1), [], PE_UnexpectedEOF. rewrite E1, E2, !app_nil_r. split; [reflexivity|].
          split; [now rewrite <- !app_assoc|constructor].
        + destruct y; [congruence|discriminate].
      - assert (x0 = [] /\ d = c_lparen) as [-> ->]. { destruct x0 as [|? [|]]; cbn in Es; try discriminate. now injection Es as <- _. }
        cbn [app] in Ec. exists (w ++ (name ++ w1) ++ [c]), left, (PE_Expected (lit "(")). subst cs2 cs1. rewrite E1.
        split; [now rewrite <- !app_assoc|]. split; [now rewrite <- !app_assoc|]. now apply (mi_paren ext plugins w name). }
  apply p_expect_inv in E as (cs3 & -> & ->). rewrite state_at_chars.
  destruct (parse_args (S (length cs3)) ext file (state_at ((((pre ++ w) ++ name) ++ w1) ++ [c_lparen]) cs3) [] [])
    as [[[pos named] p4]|x|q|] eqn:EA; cbn [bind]; try discriminate.
  2:{ intros H; injection H as <-. apply parse_args_err in EA. destruct EA as (args & left & k & -> & -> & Hk).
      exists (w ++ (name ++ w1) ++ [c_lparen] ++ args), left, k. subst cs1. rewrite E1.
      split; [now rewrite <- !app_assoc|]. split; [now rewrite <- !app_assoc|].
      destruct Hk as [[-> ->]|[Hk Hl]]; [constructor|]. now apply (mi_argument ext plugins w name). }
  pose proof (parse_args_out ext file (S (length cs3)) ((((pre ++ w) ++ name) ++ w1) ++ [c_lparen]) cs3 [] [] ltac:(lia)) as HA.
  rewrite EA in HA. cbn [pout] in HA. destruct HA as (a & b & -> & Ha & Hp4 & a' & ->). cbn [snd] in Hp4. rewrite Hp4, ignore_while_span.
  destruct (span1_spec is_whitespace b) as (E5 & Hw' & Hs5).
  set (w2 := fst (span1 is_whitespace b)) in *. set (left := snd (span1 is_whitespace b)) in *. clearbody w2 left.
  destruct (resolve plugins (RawFn name pos named)) as [f|[k|]| |] eqn:R; cbn [map_err bind]; try discriminate; intros H; injection H as <-.
  - apply resolve_some in R. cbn [rf_name] in R. rewrite traceback_state.
    exists (w ++ (name ++ w1) ++ [c_lparen] ++ a' ++ [c_rparen] ++ w2), left, k. subst cs1 b. rewrite E1.
    split; [now rewrite <- !app_assoc|]. split; [now rewrite <- !app_assoc|].
    apply (mi_rejected ext plugins w name); auto. now apply not_starts_white.
  - apply resolve_none in R. cbn [rf_name] in R. exists w, cs. eexists. split; [reflexivity|].
    split; [unfold at_pos; rewrite <- HL; reflexivity|]. rewrite E1, E2.
    replace (name ++ w1 ++ [c_lparen] ++ (a' ++ [c_rparen]) ++ b) with ((name ++ w1) ++ [c_lparen] ++ a' ++ [c_rparen] ++ b)
      by (now rewrite <- !app_assoc).
    now apply mi_unknown.
Qed.

Lemma parse_tag_mistake ext plugins file pre cs e :
  parse_tag ext plugins file (state_at pre cs) = Err e ->
  exists seen left k, cs = seen ++ left /\ e = at_pos file (last_position (pre ++ seen)) k /\ mistake ext plugins seen left k.
Proof.
  unfold parse_tag. rewrite ignore_while_span.
  destruct (span1_spec is_whitespace cs) as (E1 & Hw & Hs).
  set (w := fst (span1 is_whitespace cs)) in *. set (cs1 := snd (span1 is_whitespace cs)) in *. clearbody w cs1. subst cs.
  destruct (location _) as [line col].
  destruct cs1 as [|c0 r0].
  { unfold p_peek. rewrite state_at_chars. cbn [bind]. rewrite traceback_state. intros H; injection H as <-.
    exists (w ++ []), [], PE_UnexpectedEOF. split; [now rewrite !app_nil_r|]. split; [now rewrite app_nil_r|constructor]. }
  assert (HP : p_peek (state_at (pre ++ w) (c0 :: r0)) = Some c0) by reflexivity. rewrite HP. clear HP.
  assert (HV : forall body k2 p2 left, tag_source ext k2 body -> p2 = state_at ((pre ++ w) ++ body) left ->
     bind (p_expect file [c_rbrace; c_rbrace] (ignore_while is_whitespace p2)) (fun p3 => Ok (LTok k2 (Loc file line col), p3)) = Err e ->
     exists seen left' k, w ++ body ++ left = seen ++ left' /\ e = at_pos file (last_position (pre ++ seen)) k /\ mistake ext plugins seen left' k).
  { intros body k2 p2 left HS -> H. rewrite ignore_while_span in H. destruct (span1_spec is_whitespace left) as (E5 & Hw' & _).
    set (w2 := fst (span1 is_whitespace left)) in *. set (cs2 := snd (span1 is_whitespace left)) in *. clearbody w2 cs2. subst left.
    assert (HS' : tag_source ext k2 (body ++ w2)).
    { destruct HS as [v w1 Hv Hf Hb|f name w1 args w' Hn Hf Hb1 Hb2].
      - cbn [app]. rewrite <- app_assoc. apply ts_var; auto. apply blank_app; auto.
      - rewrite <- !app_assoc. apply ts_fun; auto. apply blank_app; auto. }
    destruct (p_expect file [c_rbrace; c_rbrace] (state_at (((pre ++ w) ++ body) ++ w2) cs2)) as [p'|x| |] eqn:E; cbn [bind] in H; try discriminate.
    injection H as <-. apply p_expect_err in E. destruct E as [(y & Ey & Hy & ->)|(x0 & d & y & c & left & Es & Ec & Hc & ->)].
    - exists (w ++ body ++ w2 ++ cs2), [], PE_UnexpectedEOF. split; [now rewrite app_nil_r|]. split; [now rewrite <- !app_assoc|constructor].
    - subst cs2. destruct x0 as [|z [|z2 x0]]; cbn in Es.
      + injection Es as <- _. exists (w ++ (body ++ w2) ++ [c]), left, (PE_Expected close_tag).
        split; [now rewrite <- !app_assoc|]. split; [now rewrite <- !app_assoc|]. apply (mi_close ext plugins w k2); auto.
      + injection Es as <- <- _. exists (w ++ (body ++ w2) ++ [c_rbrace; c]), left, (PE_Expected close_tag).
        split; [now rewrite <- !app_assoc|]. split; [now rewrite <- !app_assoc|]. apply (mi_close2 ext plugins w k2); auto.
      + destruct x0; discriminate. }
  destruct (N.eqb_spec c0 c_dollar) as [->|D].
  - pose proof (parse_variable_out ext file (pre ++ w) (c_dollar :: r0)) as HO.
    destruct (parse_variable ext file (state_at (pre ++ w) (c_dollar :: r0))) as [[t p2]|x| |] eqn:EV; cbn [bind]; try discriminate.
    + cbn [pout] in HO. destruct HO as (a & b & Ea & _ & Hp & v & Ht & -> & Hv & HF). cbn [fst snd] in *. subst t. rewrite Ea.
      apply (HV (c_dollar :: v) (TVar v)); auto. replace (c_dollar :: v) with (c_dollar :: v ++ []) by (now rewrite app_nil_r). now constructor.
    + intros H; injection H as <-. unfold parse_variable in EV.
      change (state_at (pre ++ w) (c_dollar :: r0)) with (state_at (pre ++ w) ([c_dollar] ++ r0)) in EV.
      rewrite p_expect_state in EV. cbn [bind] in EV. rewrite extract_while_span in EV.
      destruct (span1_spec (var_char ext) r0) as (E1 & _ & Hs1).
      destruct (fst (span1 (var_char ext) r0)) as [|c v]; [|discriminate]. injection EV as <-.
      rewrite app_nil_r, traceback_state. exists (w ++ [c_dollar]), r0. eexists. split; [now rewrite <- app_assoc|].
      split; [now rewrite <- app_assoc|]. constructor; auto. cbn [app] in E1. rewrite <- E1 in Hs1.
      intros (c & r & -> & V). rewrite var_point_char in V. congruence.
  - pose proof (parse_function_out ext plugins file (pre ++ w) (c0 :: r0)) as HO.
    destruct (parse_function ext plugins file (state_at (pre ++ w) (c0 :: r0))) as [[t p2]|x| |] eqn:EV; cbn [bind]; try discriminate.
    + cbn [pout] in HO. destruct HO as (a & b & Ea & _ & Hp & f & name & w1 & args & w2 & Ht & -> & Hn & HF & B1 & B2). cbn [fst snd] in *. subst t.
      rewrite Ea. apply (HV _ (TFun f)); auto. now constructor.
    + intros H; injection H as <-. apply (parse_function_mistake ext plugins file pre w (c0 :: r0) c0 r0) in EV; auto.
Qed.

Lemma html_loop_err ext plugins file fuel : forall pre cs pos e, tagged ext pre ->
  html_loop fuel ext plugins file pos (state_at pre cs) = Err e ->
  exists a src seen left k, pre ++ cs = a ++ src ++ open_tag ++ seen ++ left /\ tagged ext a /\ mistake ext plugins seen left k /\
    e = at_pos file (last_position (a ++ src ++ open_tag ++ seen)) k.
Proof.
  induction fuel as [|fuel IH]; intros pre cs pos e Hpre H; [discriminate|]. cbn [html_loop] in H.
  destruct (extract_until [c_lbrace; c_lbrace] true (state_at pre cs)) as [[raw|] p1] eqn:E; [|discriminate].
  apply extract_until_inv in E as (src & b & -> & -> & HU).
  pose proof (parse_tag_out ext plugins file (pre ++ src ++ open_tag) b) as HT.
  destruct (parse_tag ext plugins file (state_at (pre ++ src ++ open_tag) b)) as [[t p2]|x| |] eqn:ET; cbn [pout bind] in *; try discriminate.
  - destruct HT as (a2 & b2 & -> & Ha2 & Hp2 & w & body & k & -> & Hw & HS & Ht).
    cbn [fst snd] in Hp2, Ht. subst p2 t.
    destruct (html_loop fuel ext plugins file _ _) as [x|x| |] eqn:EL; cbn [bind] in H; try discriminate. injection H as <-.
    apply IH in EL.
    + rewrite <- !app_assoc in *. exact EL.
    + rewrite <- !app_assoc. now apply (tg_tag ext pre src w body k).
  - injection H as <-. apply parse_tag_mistake in ET. destruct ET as (seen & left & k & -> & -> & Hm).
    exists pre, src, seen, left, k. rewrite <- !app_assoc. auto.
Qed.
Lemma parse_html_err ext plugins file input e : parse_html ext plugins file input = Err e ->
  exists a src seen left, input = a ++ src ++ open_tag ++ seen ++ left /\ tagged ext a /\ mistake ext plugins seen left (tb_kind e) /\
    tb_path e = file /\ (tb_line e, tb_col e) = last_position (a ++ src ++ open_tag ++ seen).
Proof.
  unfold parse_html. rewrite state_at_new. intros H. apply html_loop_err in H; [|constructor].
  destruct H as (a & src & seen & left & k & E & Ha & Hm & ->). exists a, src, seen, left. cbn [app] in E.
  split; [exact E|]. split; [exact Ha|]. split; [exact Hm|]. split; [reflexivity|]. now destruct (last_position (a ++ src ++ open_tag ++ seen)).
Qed.
