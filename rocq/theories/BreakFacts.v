(** BreakFacts.v -- exactly when the parser panics (C04). *)

From Coq Require Import String List NArith ZArith Bool Lia Arith.
From Coq Require Import ZifyBool ZifyNat ZifyN.
From Verif Require Import Text TextFacts CharFacts Base Lexer LexerFacts Syntax Parse SpecTemplate SpecGrammar SpecBreak
  EscapeFacts CallFacts ParseFacts ParseInv ParseErr GrammarFacts.
Import ListNotations.
Local Open Scope N_scope.

(** One argument. *)
Lemma quote_panics ext : rawarg_parse ext [c_quote] = Panic Pn_strip_suffix_quote.
Proof. reflexivity. Qed.
Lemma add_panics ext file p o q pos named : lone_quote ext o q -> (o = None -> named = []) ->
  add_arg ext file p q pos named = Panic Pn_strip_suffix_quote.
Proof.
  intros L. destruct L as [|n N F].
  - intros N. rewrite (N eq_refl). reflexivity.
  - intros _. rewrite arg_name in F. unfold add_arg.
    assert (Hq : ~ In c_eq n).
    { intros Hin. rewrite forallb_forall in F. apply F, arg_char_var, var_char_plain in Hin. tauto. }
    assert (Hhead : (match n ++ [c_eq] ++ [c_quote] with c :: _ => negb (c =? c_quote) | [] => false end) = true).
    { destruct n as [|c n]; [congruence|]. cbn [app]. cbn [forallb] in F.
      apply andb_true_iff in F as [Hc _]. apply arg_char_var, var_char_plain in Hc as [Hc _]. unfold plain in Hc. lia. }
    assert (Hc : contains_char c_eq (n ++ [c_eq] ++ [c_quote]) = true).
    { apply contains_char_spec, in_app_iff. right. now left. }
    rewrite Hhead, Hc. cbn [andb]. cbn [app]. rewrite splitn2_app by auto. rewrite F. destruct n as [|c n]; [congruence|]. reflexivity.
Qed.
Lemma add_panics_inv ext file p t pos named x : add_arg ext file p t pos named = Panic x ->
  exists o, lone_quote ext o t /\ (o = None -> named = []).
Proof.
  unfold add_arg.
  destruct ((match t with c :: _ => negb (c =? c_quote) | [] => false end) && contains_char c_eq t) eqn:E.
  - pose proof (splitn2_spec c_eq t) as Hs. destruct (splitn2 c_eq t) as [n [v|]]; [|discriminate]. destruct Hs as [-> Hn].
    destruct ((match n with [] => true | _ :: _ => false end)
           || (match v with [] => true | _ :: _ => false end)
           || negb (forallb (arg_char ext) n)) eqn:Ec; [discriminate|].
    apply orb_false_iff in Ec as [Ec E3]. apply orb_false_iff in Ec as [E1 _]. apply negb_false_iff in E3.
    destruct (rawarg_parse_total ext v) as [[a ->]|[[e ->]|[[q ->] ->]]]; try discriminate. intros _.
    exists (Some n). split; [|discriminate]. constructor; [destruct n; congruence|]. now rewrite arg_name.
  - destruct t as [|c t]; [discriminate|]. destruct named; [|discriminate].
    destruct (rawarg_parse_total ext (c :: t)) as [[a ->]|[[e ->]|[[q ->] ->]]]; try discriminate. intros _. exists None. split; [constructor|reflexivity].
Qed.

(** The arguments. *)
Lemma lone_trimmed ext o q : lone_quote ext o q -> trimmed q.
Proof.
  intros [|n N F]; [split; reflexivity|]. rewrite arg_name in F. split.
  - destruct n as [|c n]; [congruence|]. cbn [app]. cbn [forallb] in F. apply andb_true_iff in F as [Hc _]. eapply var_char_white, arg_char_var, Hc.
  - rewrite app_assoc, rev_app_distr. reflexivity.
Qed.
Lemma span_open w : ~ In c_quote w -> span arg_pred true w = (w, []).
Proof.
  induction w as [|c w IH]; intros N; [reflexivity|]. cbn [span]. unfold arg_pred at 1. destruct (N.eqb_spec c c_quote) as [->|]; [exfalso; apply N; now left|].
  cbn [orb]. rewrite IH; [reflexivity|]. intros I. apply N. now right.
Qed.
Lemma span_lone ext o q w : lone_quote ext o q -> blank w -> span arg_pred false (q ++ w) = (q ++ w, []).
Proof.
  intros L B. assert (Q : span arg_pred false ([c_quote] ++ w) = ([c_quote] ++ w, [])).
  { cbn [app span]. unfold arg_pred at 1. rewrite N.eqb_refl. cbn [negb orb]. now rewrite (span_open w (blank_no_quote w B)). }
  destruct L as [|n N F]; [exact Q|]. rewrite arg_name in F. rewrite <- !app_assoc.
  assert (T : through (n ++ [c_eq])).
  { apply through_app; [|now apply through_plain]. apply through_plain. eapply forallb_impl; [|exact F]. intros x Hx. eapply var_char_plain, arg_char_var, Hx. }
  rewrite app_assoc. rewrite T, Q. reflexivity.
Qed.
Lemma lone_round ext pre w1 o q w2 : blank w1 -> blank w2 -> lone_quote ext o q ->
  extract_while_st arg_pred false (ignore_while is_whitespace (state_at pre (w1 ++ q ++ w2))) = (q ++ w2, state_at (pre ++ w1 ++ q ++ w2) []).
Proof.
  intros H1 H2 L. rewrite ignore_while_app; auto.
  - rewrite extract_while_st_span, (span_lone ext o q w2 L H2). cbn [fst snd]. now rewrite <- !app_assoc.
  - destruct (lone_trimmed _ _ _ L) as [T _]. destruct L as [|n N F]; [exact T|]. destruct n; [congruence|exact T].
Qed.
Lemma open_args_panic ext file o l t : open_args ext o l t -> Forall (parg_ok ext) l ->
  forall fuel pre pos named pos' named', (length t < fuel)%nat -> collect l pos named = Some (pos', named') -> (o = None -> named' = []) ->
  parse_args fuel ext file (state_at pre t) pos named = Panic Pn_strip_suffix_quote.
Proof.
  intros Ht. induction Ht as [w1 q w2 H1 H2 L|w l t Hw Ht IH|w1 a p w2 l t H1 H2 Hp Ht IH];
    intros Hok fuel pre pos named pos' named' Hf C O; (destruct fuel as [|fuel]; [lia|]); cbn [parse_args].
  - cbn [collect] in C. injection C as <- <-. rewrite (lone_round ext pre w1 o q w2 H1 H2 L).
    assert (TP : trim (q ++ w2) = q) by (apply (trim_pad [] q w2); auto; eapply lone_trimmed; eauto). rewrite TP. now rewrite (add_panics ext file _ o q pos named L O).
  - rewrite blank_round by (first [assumption|reflexivity]). cbn [app].
    change (trim []) with (@nil char). cbn [add_arg andb bind].
    rewrite p_next_state. change (c_comma =? c_rparen) with false. rewrite N.eqb_refl. cbn iota.
    rewrite !app_length in Hf. cbn [length] in Hf. apply (IH Hok) with pos' named'; auto. lia.
  - inversion Hok as [|? ? Ha Hok']; subst. cbn [collect] in C.
    rewrite arg_round with (ext := ext) (a := a); auto.
    rewrite trim_parg with (ext := ext) (a := a) by auto. rewrite (add_arg_text ext file _ a) by auto.
    destruct (add_parg a pos named) as [[pos1 named1]|]; [|discriminate]. cbn [bind].
    cbn [app]. rewrite p_next_state. change (c_comma =? c_rparen) with false. rewrite N.eqb_refl. cbn iota.
    rewrite !app_length in Hf. cbn [length] in Hf. apply (IH Hok') with pos' named'; auto. lia.
Qed.
Lemma panic_open_args ext file fuel : forall pre cs pos named x,
  parse_args fuel ext file (state_at pre cs) pos named = Panic x ->
  exists o l pos' named', open_args ext o l cs /\ Forall (parg_ok ext) l /\ collect l pos named = Some (pos', named') /\ (o = None -> named' = []).
Proof.
  induction fuel as [|fuel IH]; intros pre cs pos named x H; [discriminate|].
  cbn [parse_args] in H. rewrite ignore_while_span, extract_while_st_span in H.
  destruct (span1_spec is_whitespace cs) as (E1 & Hw & _).
  set (w := fst (span1 is_whitespace cs)) in *. set (cs1 := snd (span1 is_whitespace cs)) in *.
  pose proof (span_app arg_pred false cs1) as E2.
  pose proof (span_arg_stop cs1 false) as Hstop. pose proof (span_arg_parity cs1 false) as Hpar.
  set (raw := fst (span arg_pred false cs1)) in *. set (cs2 := snd (span arg_pred false cs1)) in *.
  clearbody raw cs2 w cs1.
  destruct (trim_spec raw) as (u & y & Er & Hx & Hy & _).
  assert (Hraw : w ++ raw = (w ++ u) ++ trim raw ++ y) by (rewrite Er at 1; now rewrite <- !app_assoc).
  assert (Hb : blank (w ++ u)) by (apply blank_app; auto).
  assert (Hy' : blank y) by auto.
  assert (Ecs : cs = (w ++ raw) ++ cs2) by (rewrite E1, E2; now rewrite <- app_assoc).
  match type of H with context [add_arg ext file ?q ?t pos named] =>
    destruct (add_arg ext file q t pos named) as [[pos1 named1]| | |] eqn:Ea end; try discriminate; cbn [bind] in H.
  - destruct cs2 as [|c cs3]; [discriminate|]. rewrite p_next_state in H. specialize (Hstop c cs3 eq_refl).
    destruct (N.eqb_spec c c_rparen) as [->|Hc1]; [discriminate|]. destruct (N.eqb_spec c c_comma) as [->|Hc2]; [|exfalso; tauto].
    apply IH in H as (o & l & pos' & named' & L & F & C & O). apply add_arg_inv in Ea. clear E1 E2 Hw Hx.
    destruct Ea as [[Et Epn]|(a & A1 & A2 & A3)].
    + injection Epn as -> ->. exists o, l, pos', named'. split; [|auto]. rewrite Ecs. apply oa_skip; auto. rewrite Hraw, Et. apply blank_app; auto.
    + exists o, (a :: l), pos', named'. split; [|split; [now constructor|split; [cbn [collect]; now rewrite A3|exact O]]].
      rewrite Ecs, Hraw. replace (((w ++ u) ++ trim raw ++ y) ++ c_comma :: cs3) with ((w ++ u) ++ trim raw ++ y ++ [c_comma] ++ cs3) by (now rewrite <- !app_assoc). now constructor.
  - apply add_panics_inv in Ea as (o & L & O). exists o, [], pos, named. split; [|split; [constructor|split; [reflexivity|exact O]]].
    assert (Hq : quotes raw = 1%nat).
    { rewrite Er, !quotes_app, (quotes_none u), (quotes_none y); auto using blank_no_quote.
      assert (Q : quotes (trim raw) = 1%nat); [|rewrite Q; reflexivity]. destruct L as [|n N F]; [reflexivity|]. rewrite !quotes_app, (quotes_none n); [reflexivity|].
      intros I. rewrite arg_name in F. rewrite forallb_forall in F. apply F, arg_char_var, var_char_plain in I as [I _]. discriminate. }
    assert (Hnil : cs2 = []).
    { destruct cs2; auto. specialize (Hpar ltac:(discriminate)). rewrite Hq in Hpar. discriminate. }
    rewrite Ecs, Hnil, app_nil_r, Hraw. now constructor.
Qed.

(** One tag. *)
Lemma open_call_panic ext plugins file pre t : open_call ext t -> parse_tag ext plugins file (state_at pre t) = Panic Pn_strip_suffix_quote.
Proof.
  intros (w1 & name & w & pos & named & o & u & -> & H1 & Hw & Hn & Hf & Hok & Ht & O). unfold parse_tag. rewrite fun_name in Hf.
  rewrite ignore_while_app; [|auto|].
  2:{ destruct name as [|c name]; [congruence|]. cbn in *. apply andb_true_iff in Hf as [Hf _]. now apply fun_char_white in Hf. }
  destruct (location (state_at (pre ++ w1) _)) as [line col].
  destruct name as [|c0 name0]; [congruence|]. set (name := c0 :: name0) in *.
  assert (Hc : (c0 =? c_dollar) = false).
  { cbn in Hf. apply andb_true_iff in Hf as [Hf _]. unfold fun_char, is_alnum, c_under, c_colon, is_digit, is_ascii_alpha in Hf. unfold c_dollar. destruct (c0 <? 128) eqn:E; lia. }
  assert (Hp : forall x, p_peek (state_at (pre ++ w1) (name ++ x)) = Some c0) by reflexivity.
  rewrite Hp, Hc. unfold parse_function. destruct (location _) as [line' col'].
  rewrite extract_while_app; [|auto|].
  2:{ apply stops_blank_then; [intros; now apply white_not_fun|assumption|reflexivity]. }
  unfold name at 1. cbn iota.
  rewrite ignore_while_app; [|auto|reflexivity].
  rewrite p_expect_state. cbn [bind]. rewrite state_at_chars.
  now rewrite (open_args_panic ext file o _ _ Ht Hok _ _ [] [] pos named (le_n _) (collect_pargs pos named) O).
Qed.
Lemma panic_open_call ext plugins file pre cs x : parse_tag ext plugins file (state_at pre cs) = Panic x -> open_call ext cs.
Proof.
  unfold parse_tag. rewrite ignore_while_span. destruct (span1_spec is_whitespace cs) as (E1 & Hw & _).
  set (w := fst (span1 is_whitespace cs)) in *. set (cs1 := snd (span1 is_whitespace cs)) in *. clearbody w cs1.
  destruct (location (state_at (pre ++ w) cs1)) as [line col]. intros H.
  match type of H with bind ?m _ = _ => destruct m as [[t p2]| |y|] eqn:ET end; try discriminate; cbn [bind] in H.
  { match type of H with context [p_expect file ?s ?q] => destruct (p_expect_total file s q) as [[p1 E]|[e E]]; rewrite E in H; discriminate end. }
  clear H. destruct (p_peek (state_at (pre ++ w) cs1)) as [c|]; [|discriminate]. destruct (c =? c_dollar).
  { exfalso. clear -ET. unfold parse_variable in ET. match type of ET with context [p_expect file ?s ?q] => destruct (p_expect_total file s q) as [[p1 E]|[e E]]; rewrite E in ET; cbn [bind] in ET; [|discriminate] end.
    destruct (extract_while (var_char ext) p1) as [[|v0 v] p3]; discriminate. }
  revert ET. unfold parse_function. destruct (location (state_at (pre ++ w) cs1)) as [line' col'].
  rewrite extract_while_span. destruct (span1_spec (fun_char ext) cs1) as (E2 & Hn & _).
  set (name := fst (span1 (fun_char ext) cs1)) in *. set (cs2 := snd (span1 (fun_char ext) cs1)) in *.
  clearbody name cs2. destruct name as [|c0 name0]; [discriminate|].
  set (name := c0 :: name0) in *. assert (Hne : name <> []) by discriminate.
  rewrite ignore_while_span. destruct (span1_spec is_whitespace cs2) as (E3 & Hw' & _).
  set (w' := fst (span1 is_whitespace cs2)) in *. set (cs3 := snd (span1 is_whitespace cs2)) in *. clearbody w' cs3.
  match goal with |- context [p_expect file ?s ?q] => destruct (p_expect_total file s q) as [[p1 E]|[e E]]; rewrite E; cbn [bind]; [|discriminate] end.
  apply p_expect_inv in E as (u & -> & ->). rewrite state_at_chars. intros H.
  match type of H with context [parse_args ?f ext file ?s [] []] =>
    destruct (parse_args f ext file s [] []) as [[[pos named] p4]| |z|] eqn:EA end; try discriminate; cbn [bind] in H.
  { exfalso. unfold resolve in H. cbn [rf_name] in H. destruct (find_builtin name function_parsers) as [b|].
    - destruct (builtin_parse_total b (RawFn name pos named)) as [[f T]|[e T]]; rewrite T in H; discriminate.
    - destruct (find_plugin name plugins) as [f|]; [destruct (pp_parse f _)|]; discriminate. }
  apply panic_open_args in EA as (o & l & pos' & named' & L & F & C & O).
  apply collect_some in C as (pos1 & named1 & -> & C & _). apply pair_equal_spec in C as [-> ->].
  exists w, name, w', pos1, named1, o, u. split; [now rewrite E1, E2, E3|]. split; [now apply ws_blank|]. split; [now apply ws_blank|]. split; [exact Hne|].
  split; [now rewrite fun_name|]. auto.
Qed.

(** Whole texts. *)
Lemma breaks_panic ext plugins file t : breaks ext plugins t -> forall fuel pos pre, (length t < fuel)%nat ->
  html_loop fuel ext plugins file pos (state_at pre t) = Panic Pn_strip_suffix_quote.
Proof.
  intros B. induction B as [t s rest F O|t s g k w1 b w2 t' F H1 H2 Hb Hd B IH]; intros fuel pos pre Hf;
    (destruct fuel as [|fuel]; [lia|]); cbn [html_loop]; change [c_lbrace; c_lbrace] with open_tag.
  - destruct (extract_first_tag pre t s _ F) as (src & E & Hl & ->). now rewrite (open_call_panic ext plugins file _ _ O).
  - destruct (extract_first_tag pre t s _ F) as (src & E & Hl & ->).
    destruct (parse_loose_tag ext plugins file (pre ++ src) w1 g b w2 t' k H1 H2 Hb Hd) as [loc ->]. cbn [bind]. rewrite IH; [reflexivity|].
    rewrite !app_length in Hl. lia.
Qed.
Lemma panic_breaks ext plugins file fuel : forall pos pre cs x,
  html_loop fuel ext plugins file pos (state_at pre cs) = Panic x -> breaks ext plugins cs.
Proof.
  induction fuel as [|fuel IH]; intros pos pre cs x H; [discriminate|]. cbn [html_loop] in H. change [c_lbrace; c_lbrace] with open_tag in H.
  destruct (scan_text _ cs (le_n _)) as [(raw & rest & F)|(raw & N)].
  - destruct (extract_first_tag pre cs raw rest F) as (src & E & _ & U). rewrite U in H.
    destruct (parse_tag ext plugins file (state_at (pre ++ src) rest)) as [[k p2]| |y|] eqn:ET; try discriminate; cbn [bind] in H.
    + apply parse_tag_inv in ET as (g & w1 & b & w2 & t' & -> & H1 & H2 & -> & L & D).
      match type of H with context [html_loop fuel ext plugins file ?p ?q] =>
        destruct (html_loop fuel ext plugins file p q) as [toks'| |z|] eqn:EL end; try discriminate.
      apply IH in EL. eapply br_later; eauto.
    + apply panic_open_call in ET. eapply br_here; eauto.
  - destruct (extract_no_tag pre cs raw N) as (p1 & U & R). rewrite U in H. discriminate.
Qed.
Lemma panics_exactly ext plugins file t : (exists x, parse_html ext plugins file t = Panic x) <-> breaks ext plugins t.
Proof.
  unfold parse_html. rewrite state_at_new. split.
  - intros [x H]. eapply panic_breaks; eauto.
  - intros B. eexists. apply breaks_panic; [exact B|]. lia.
Qed.
Lemma reported ext plugins file t : (forall ks, ~ means ext plugins t ks) -> ~ breaks ext plugins t -> exists e, parse_html ext plugins file t = Err e.
Proof.
  intros M B. destruct (parse_html_total ext plugins file t) as [[toks E]|[[e E]|[X _]]].
  - exfalso. apply (M (map t_inner toks)). apply (parse_means ext plugins file). now exists toks.
  - now exists e.
  - exfalso. apply B. now apply (panics_exactly ext plugins file).
Qed.
