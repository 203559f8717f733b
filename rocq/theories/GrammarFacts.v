(** GrammarFacts.v -- the texts [parse_html] accepts are those of [SpecGrammar]. *)

From Coq Require Import String List NArith ZArith Bool Lia Arith.
From Coq Require Import ZifyBool ZifyNat ZifyN.
From Verif Require Import Text TextFacts CharFacts Base Lexer LexerFacts Syntax Parse SpecTemplate SpecGrammar
  EscapeFacts CallFacts ParseFacts ParseInv ParseErr.
Import ListNotations.
Local Open Scope N_scope.

(** Raw text. *)
Definition clean (cs racc : text) : Prop :=
  (begins [c_lbrace] cs -> top_not c_lbrace racc) /\ (begins open_tag cs -> top_not c_bslash racc).
Lemma begins_dec p t : {begins p t} + {~ begins p t}.
Proof.
  destruct (strip_prefix p t) as [r|] eqn:E.
  - left. exists r. now apply strip_prefix_spec.
  - right. intros [r ->]. assert (H : strip_prefix p (p ++ r) = Some r) by now apply strip_prefix_spec.
    congruence.
Qed.
Lemma begins_self p r : begins p (p ++ r).
Proof. now exists r. Qed.

Lemma until_char c t racc pre : ~ begins open_tag (c :: t) -> ~ begins escaped_tag (c :: t) -> clean (c :: t) racc ->
  until_loop open_tag true (c :: t) racc (state_at pre (c :: t)) =
  until_loop open_tag true t (c :: racc) (state_at (pre ++ [c]) t) /\ clean t (c :: racc).
Proof.
  intros H1 H2 [C1 C2]. split.
  - destruct (N.eq_dec c c_lbrace) as [->|Hc].
    + apply until_step_brace. apply C1. now exists t.
    + now apply until_step_other.
  - split.
    + intros [r ->]. cbn [top_not]. intros ->. apply H1. now exists r.
    + intros [r ->]. cbn [top_not]. intros ->. apply H2. now exists r.
Qed.
Lemma clean_plain t racc : ~ begins [c_lbrace] t -> clean t racc.
Proof.
  intros H. split; [contradiction|]. intros [r ->]. exfalso. apply H. now exists (c_lbrace :: r).
Qed.

Lemma first_tag_until cs raw rest : first_tag cs raw rest -> forall racc pre, clean cs racc ->
  exists src, cs = src ++ rest /\
    until_loop open_tag true cs racc (state_at pre cs) = (Some (rev racc ++ raw), state_at (pre ++ src) rest).
Proof.
  induction 1 as [rest|c t raw rest H1 H2 _ IH|t raw rest H1 _ IH|rest]; intros racc pre Hc.
  - exists open_tag. split; auto. rewrite app_nil_r. apply until_step_open.
    + apply Hc. now exists (c_lbrace :: rest).
    + apply Hc. now exists rest.
  - destruct (until_char c t racc pre H1 H2 Hc) as [-> Hc'].
    destruct (IH (c :: racc) (pre ++ [c]) Hc') as (src & -> & ->).
    exists (c :: src). split; auto. cbn [rev]. now rewrite <- !app_assoc.
  - cbn [escaped_tag app]. rewrite until_step_escaped.
    destruct (IH (c_lbrace :: c_lbrace :: racc) (pre ++ [c_bslash; c_lbrace; c_lbrace]) (clean_plain _ _ H1))
      as (src & -> & ->).
    exists (escaped_tag ++ src). split; auto. cbn [rev]. now rewrite <- !app_assoc.
  - exists (escaped_tag ++ [c_lbrace]). split; auto.
    cbn [escaped_tag app]. rewrite until_step_escaped. cbn [until_loop]. rewrite state_at_advance.
    cbn [rev app open_tag strip_prefix]. rewrite !N.eqb_refl. cbn [andb].
    change (c_lbrace =? c_bslash) with false. cbn iota. cbn [rev]. now rewrite <- !app_assoc.
Qed.
Lemma no_tag_until cs raw : no_tag cs raw -> forall racc pre, clean cs racc ->
  fst (until_loop open_tag true cs racc (state_at pre cs)) = None.
Proof.
  induction 1 as [|c t raw H1 H2 _ IH|t raw H1 _ IH]; intros racc pre Hc.
  - reflexivity.
  - destruct (until_char c t racc pre H1 H2 Hc) as [-> Hc']. now apply IH.
  - cbn [escaped_tag app]. rewrite until_step_escaped. apply IH. now apply clean_plain.
Qed.
Lemma no_tag_replace cs raw : no_tag cs raw ->
  replace_aux escaped_tag open_tag O cs = raw.
Proof.
  induction 1 as [|c t raw H1 H2 _ IH|t raw H1 _ IH].
  - reflexivity.
  - cbn [replace_aux]. destruct (strip_prefix escaped_tag (c :: t)) as [r|] eqn:E.
    + exfalso. apply H2. exists r. now apply strip_prefix_spec.
    + now rewrite IH.
  - change (escaped_tag ++ t) with (c_bslash :: c_lbrace :: c_lbrace :: t).
    transitivity (c_lbrace :: c_lbrace :: replace_aux escaped_tag open_tag O t); [reflexivity|]. now rewrite IH.
Qed.

(** Every text is of one kind. *)
Lemma scan_text n : forall cs, (length cs <= n)%nat ->
  (exists raw rest, first_tag cs raw rest) \/ exists raw, no_tag cs raw.
Proof.
  induction n as [|n IH]; intros cs Hn.
  - destruct cs; [right; exists []; constructor|cbn in Hn; lia].
  - destruct cs as [|c t]; [right; exists []; constructor|]. cbn [length] in Hn.
    destruct (begins_dec open_tag (c :: t)) as [[r E]|H1].
    { left. exists [], r. rewrite E. constructor. }
    destruct (begins_dec escaped_tag (c :: t)) as [[r E]|H2].
    + rewrite E. assert (Hr : (length r <= n)%nat).
      { apply (f_equal (@length char)) in E. rewrite app_length in E. cbn in E. lia. }
      destruct (begins_dec [c_lbrace] r) as [[r' ->]|H3].
      * left. exists [c_lbrace], r'. constructor.
      * destruct (IH r Hr) as [(raw & rest & H)|(raw & H)].
        -- left. exists (open_tag ++ raw), rest. now constructor.
        -- right. exists (open_tag ++ raw). now constructor.
    + destruct (IH t ltac:(lia)) as [(raw & rest & H)|(raw & H)].
      * left. exists (c :: raw), rest. now constructor.
      * right. exists (c :: raw). now constructor.
Qed.

Lemma clean_nil cs : clean cs [].
Proof. split; intros _; exact I. Qed.
Lemma extract_first_tag pre cs raw rest : first_tag cs raw rest ->
  exists src, cs = src ++ rest /\ (length rest < length cs)%nat /\
    extract_until open_tag true (state_at pre cs) = (Some raw, state_at (pre ++ src) rest).
Proof.
  intros H. destruct (first_tag_until _ _ _ H [] pre (clean_nil cs)) as (src & E & U).
  exists src. split; auto. split.
  - clear -H. induction H; cbn [length app escaped_tag open_tag] in *; lia.
  - unfold extract_until. rewrite state_at_chars, U. reflexivity.
Qed.
Lemma extract_no_tag pre cs raw : no_tag cs raw ->
  exists p1, extract_until open_tag true (state_at pre cs) = (None, p1) /\ extract_remaining p1 = raw.
Proof.
  intros H. pose proof (no_tag_until _ _ H [] pre (clean_nil cs)) as U.
  unfold extract_until. rewrite state_at_chars.
  destruct (until_loop open_tag true cs [] (state_at pre cs)) as [o p']. cbn [fst] in U. subst o.
  eexists. split; [reflexivity|]. unfold extract_remaining, str_replace. cbn [p_chars].
  now apply no_tag_replace.
Qed.

(** Arguments. *)
Lemma rawarg_parse_inv ext t a : rawarg_parse ext t = Ok a -> arg_ok ext a /\ arg_text a t.
Proof.
  unfold rawarg_parse. destruct (strip_prefix [c_dollar] t) as [v|] eqn:Ed.
  - apply strip_prefix_spec in Ed. subst t. destruct (forallb (var_char ext) v) eqn:E; [|discriminate].
    intros H. injection H as <-. split; [|constructor]. cbn [arg_ok]. now rewrite var_name.
  - destruct (starts_with [c_quote] t && ends_with [c_quote] t).
    + destruct (strip_prefix [c_quote] t) as [r|] eqn:E1; [|discriminate].
      destruct (strip_suffix [c_quote] r) as [s|] eqn:E2; [|discriminate].
      destruct (contains_char c_quote s) eqn:E3; [discriminate|].
      intros H. injection H as <-. apply strip_prefix_spec in E1. apply strip_suffix_spec in E2. subst.
      split; [|constructor]. cbn [arg_ok]. now apply contains_char_false.
    + destruct (parse_i32 t) as [z|] eqn:Ez.
      * intros H. injection H as <-. apply parse_integer in Ez as [H1 H2]. split; auto. now constructor.
      * destruct (is_ident t) eqn:Ei; [|discriminate]. intros H. injection H as <-.
        split; [|constructor]. cbn [arg_ok]. apply is_ident_spec in Ei as (b & Hb & ->).
        rewrite builtin_names_eq. now apply in_map.
Qed.
Lemma add_arg_inv ext file p t pos named r : add_arg ext file p t pos named = Ok r ->
  t = [] /\ r = (pos, named) \/ exists a, parg_ok ext a /\ parg_text a t /\ add_parg a pos named = Some r.
Proof.
  unfold add_arg.
  destruct ((match t with c :: _ => negb (c =? c_quote) | [] => false end) && contains_char c_eq t) eqn:E.
  - pose proof (splitn2_spec c_eq t) as Hs. destruct (splitn2 c_eq t) as [n [v|]]; [|discriminate].
    destruct Hs as [-> Hn].
    destruct ((match n with [] => true | _ :: _ => false end)
           || (match v with [] => true | _ :: _ => false end)
           || negb (forallb (arg_char ext) n)) eqn:Ec; [discriminate|].
    apply orb_false_iff in Ec as [Ec E3]. apply orb_false_iff in Ec as [E1 _]. apply negb_false_iff in E3.
    destruct (rawarg_parse ext v) as [a| | |] eqn:Ea; try discriminate. cbn [map_err bind].
    intros H. injection H as <-. right. exists (Some n, a).
    apply rawarg_parse_inv in Ea as [A1 A2]. split.
    + split; auto. cbn [fst]. rewrite arg_name. split; auto. destruct n; congruence.
    + split; [now constructor|reflexivity].
  - destruct t as [|c t]; [intros H; injection H as <-; now left|].
    destruct named; [|discriminate].
    destruct (rawarg_parse ext (c :: t)) as [a| | |] eqn:Ea; try discriminate. cbn [map_err bind].
    intros H. injection H as <-. right. exists (None, a).
    apply rawarg_parse_inv in Ea as [A1 A2]. split; [split; [exact A1|exact Logic.I]|]. split; [now constructor|reflexivity].
Qed.

Lemma parse_args_inv ext file fuel : forall pre cs pos named pos' named' p',
  parse_args fuel ext file (state_at pre cs) pos named = Ok (pos', named', p') ->
  exists l t rest, cs = t ++ [c_rparen] ++ rest /\ p' = state_at (pre ++ t ++ [c_rparen]) rest /\
    loose_args l t /\ Forall (parg_ok ext) l /\ collect l pos named = Some (pos', named').
Proof.
  induction fuel as [|fuel IH]; intros pre cs pos named pos' named' p' H; [discriminate|].
  cbn [parse_args] in H. rewrite ignore_while_span, extract_while_st_span in H.
  destruct (span1_spec is_whitespace cs) as (E1 & Hw & _).
  set (w := fst (span1 is_whitespace cs)) in *. set (cs1 := snd (span1 is_whitespace cs)) in *.
  pose proof (span_app arg_pred false cs1) as E2.
  pose proof (span_arg_stop cs1 false) as Hstop.
  set (raw := fst (span arg_pred false cs1)) in *. set (cs2 := snd (span arg_pred false cs1)) in *.
  clearbody raw cs2 w cs1.
  destruct (trim_spec raw) as (x & y & Er & Hx & Hy & _).
  match type of H with context [add_arg ext file ?q ?t pos named] =>
    destruct (add_arg ext file q t pos named) as [[pos1 named1]| | |] eqn:Ea end; try discriminate.
  cbn [bind] in H. destruct cs2 as [|c cs3]; [discriminate|]. rewrite p_next_state in H.
  assert (Hraw : w ++ raw = (w ++ x) ++ trim raw ++ y) by (rewrite Er at 1; now rewrite <- !app_assoc).
  assert (Hb : blank (w ++ x)) by (apply blank_app; auto).
  assert (Hy' : blank y) by auto.
  apply add_arg_inv in Ea.
  specialize (Hstop c cs3 eq_refl).
  assert (Ecs : cs = (w ++ raw) ++ c :: cs3) by (rewrite E1, E2; now rewrite <- app_assoc).
  clear E1 E2 Hw Hx.
  destruct (N.eqb_spec c c_rparen) as [->|Hc1].
  - injection H as <- <- <-.
    destruct Ea as [[Et Epn]|(a & A1 & A2 & A3)].
    + injection Epn as -> ->. exists [], (w ++ raw), cs3. split; [exact Ecs|].
      split; [now rewrite <- !app_assoc|]. split; [|split; [constructor|reflexivity]].
      apply la_end. rewrite Hraw, Et. apply blank_app; auto.
    + exists [a], (w ++ raw), cs3. split; [exact Ecs|]. split; [now rewrite <- !app_assoc|].
      split; [rewrite Hraw; now constructor|]. split; [now constructor|].
      cbn [collect]. now rewrite A3.
  - destruct (N.eqb_spec c c_comma) as [->|Hc2]; [|discriminate].
    apply IH in H as (l & t & rest & -> & -> & L & F & C).
    destruct Ea as [[Et Epn]|(a & A1 & A2 & A3)].
    + injection Epn as -> ->. exists l, ((w ++ raw) ++ [c_comma] ++ t), rest.
      split; [rewrite Ecs; now rewrite <- !app_assoc|]. split; [now rewrite <- !app_assoc|].
      split; [|auto]. apply la_skip; auto. rewrite Hraw, Et. apply blank_app; auto.
    + exists (a :: l), ((w ++ raw) ++ [c_comma] ++ t), rest.
      split; [rewrite Ecs; now rewrite <- !app_assoc|]. split; [now rewrite <- !app_assoc|].
      split.
      { rewrite Hraw. replace (((w ++ x) ++ trim raw ++ y) ++ [c_comma] ++ t)
          with ((w ++ x) ++ trim raw ++ y ++ [c_comma] ++ t) by (now rewrite <- !app_assoc). now constructor. }
      split; [now constructor|].
      cbn [collect]. now rewrite A3.
Qed.

Lemma blank_round pre w rest : blank w -> span arg_pred false rest = ([], rest) -> stops is_whitespace rest ->
  extract_while_st arg_pred false (ignore_while is_whitespace (state_at pre (w ++ rest))) =
  ([], state_at (pre ++ w) rest).
Proof.
  intros Hw Hr Hs. rewrite ignore_while_app by auto. rewrite extract_while_st_span, Hr. cbn [fst snd].
  now rewrite app_nil_r.
Qed.
Lemma parse_loose_args ext file l t : loose_args l t -> Forall (parg_ok ext) l ->
  forall fuel pre pos named pos' named' rest, (length t < fuel)%nat ->
  collect l pos named = Some (pos', named') ->
  parse_args fuel ext file (state_at pre (t ++ [c_rparen] ++ rest)) pos named =
  Ok (pos', named', state_at (pre ++ t ++ [c_rparen]) rest).
Proof.
  intros Ht. induction Ht as [w Hw|w1 a p w2 H1 H2 Hp|w l t Hw Ht IH|w1 a p w2 l t H1 H2 Hp Ht IH];
    intros Hok fuel pre pos named pos' named' rest Hf C; (destruct fuel as [|fuel]; [lia|]); cbn [parse_args].
  - cbn [collect] in C. injection C as <- <-.
    rewrite blank_round by (first [assumption|reflexivity]). cbn [app].
    change (trim []) with (@nil char). cbn [add_arg andb bind].
    rewrite p_next_state. rewrite N.eqb_refl. now rewrite <- app_assoc.
  - inversion Hok as [|? ? Ha _]; subst. cbn [collect] in C.
    rewrite <- !app_assoc. rewrite arg_round with (ext := ext) (a := a); auto.
    rewrite trim_parg with (ext := ext) (a := a) by auto. rewrite (add_arg_text ext file _ a) by auto.
    destruct (add_parg a pos named) as [[pos1 named1]|]; [|discriminate]. injection C as <- <-. cbn [bind].
    cbn [app]. rewrite p_next_state, N.eqb_refl. now rewrite <- !app_assoc.
  - rewrite <- !app_assoc. rewrite blank_round by (first [assumption|reflexivity]). cbn [app].
    change (trim []) with (@nil char). cbn [add_arg andb bind].
    rewrite p_next_state. change (c_comma =? c_rparen) with false. rewrite N.eqb_refl. cbn iota.
    rewrite !app_length in Hf. cbn [length] in Hf.
    rewrite (IH Hok fuel _ pos named pos' named' rest) by (auto; lia).
    now rewrite <- !app_assoc.
  - inversion Hok as [|? ? Ha Hok']; subst. cbn [collect] in C.
    rewrite <- !app_assoc. rewrite arg_round with (ext := ext) (a := a); auto.
    rewrite trim_parg with (ext := ext) (a := a) by auto. rewrite (add_arg_text ext file _ a) by auto.
    destruct (add_parg a pos named) as [[pos1 named1]|]; [|discriminate]. cbn [bind].
    cbn [app]. rewrite p_next_state. change (c_comma =? c_rparen) with false. rewrite N.eqb_refl. cbn iota.
    rewrite !app_length in Hf. cbn [length] in Hf.
    rewrite (IH Hok' fuel _ pos1 named1 pos' named' rest) by (auto; lia).
    now rewrite <- !app_assoc.
Qed.

(** Tags. *)
Lemma parse_function_inv ext plugins file pre cs k p' :
  parse_function ext plugins file (state_at pre cs) = Ok (k, p') ->
  exists g b w rest, cs = b ++ w ++ rest /\ blank w /\ p' = state_at (pre ++ b ++ w) rest /\
    loose_tag ext g b /\ denotes plugins g k.
Proof.
  unfold parse_function. destruct (location (state_at pre cs)) as [line col].
  rewrite extract_while_span. destruct (span1_spec (fun_char ext) cs) as (E1 & Hn & _).
  set (name := fst (span1 (fun_char ext) cs)) in *. set (cs1 := snd (span1 (fun_char ext) cs)) in *.
  clearbody name cs1. destruct name as [|c0 name0]; [discriminate|].
  set (name := c0 :: name0) in *. assert (Hne : name <> []) by discriminate.
  rewrite ignore_while_span. destruct (span1_spec is_whitespace cs1) as (E2 & Hw & _).
  set (w := fst (span1 is_whitespace cs1)) in *. set (cs2 := snd (span1 is_whitespace cs1)) in *.
  clearbody w cs2.
  destruct (p_expect_total file [c_lparen] (state_at ((pre ++ name) ++ w) cs2)) as [[p1 E]|[e E]];
    rewrite E; cbn [bind]; [|discriminate].
  apply p_expect_inv in E as (cs3 & -> & ->).
  rewrite state_at_chars. intros H.
  match type of H with context [parse_args ?f ext file ?s [] []] =>
    destruct (parse_args f ext file s [] []) as [[[pos named] p4]| | |] eqn:EA end; try discriminate.
  cbn [bind] in H. apply parse_args_inv in EA as (l & t & rest & -> & -> & L & F & C).
  apply collect_some in C as (pos1 & named1 & -> & C & _). apply pair_equal_spec in C as [-> ->].
  rewrite ignore_while_span in H. destruct (span1_spec is_whitespace rest) as (E5 & Hw' & _).
  destruct (resolve plugins (RawFn name ([] ++ pos1) ([] ++ named1))) as [f| | |] eqn:R; try discriminate.
  cbn [map_err bind] in H. injection H as <- <-. cbn [app] in R.
  exists (GCall name pos1 named1), (name ++ w ++ [c_lparen] ++ t ++ [c_rparen]),
    (fst (span1 is_whitespace rest)), (snd (span1 is_whitespace rest)).
  split; [rewrite E1, E2; rewrite E5 at 1; rewrite <- !app_assoc; reflexivity|]. split; [now apply ws_blank|].
  split; [now rewrite <- !app_assoc|]. split.
  - constructor; auto. now rewrite fun_name.
  - apply resolve_denotes. eauto.
Qed.
Lemma parse_tag_inv ext plugins file pre cs k p' :
  parse_tag ext plugins file (state_at pre cs) = Ok (k, p') ->
  exists g w1 b w2 rest, cs = w1 ++ b ++ w2 ++ close_tag ++ rest /\ blank w1 /\ blank w2 /\
    p' = state_at (pre ++ w1 ++ b ++ w2 ++ close_tag) rest /\ loose_tag ext g b /\ denotes plugins g (t_inner k).
Proof.
  unfold parse_tag. rewrite ignore_while_span.
  destruct (span1_spec is_whitespace cs) as (E1 & Hw & _).
  set (w := fst (span1 is_whitespace cs)) in *. set (cs1 := snd (span1 is_whitespace cs)) in *.
  clearbody w cs1.
  destruct (location (state_at (pre ++ w) cs1)) as [line col]. intros H.
  match type of H with bind ?m _ = _ => destruct m as [[t p2]| | |] eqn:ET end; try discriminate.
  cbn [bind] in H.
  assert (HT : exists g b w2 rest, cs1 = b ++ w2 ++ rest /\ blank w2 /\
    p2 = state_at ((pre ++ w) ++ b ++ w2) rest /\ loose_tag ext g b /\ denotes plugins g t).
  { destruct (p_peek (state_at (pre ++ w) cs1)) as [c|]; [|discriminate].
    destruct (c =? c_dollar).
    - pose proof (parse_variable_out ext file (pre ++ w) cs1) as HV. rewrite ET in HV.
      destruct HV as (a & b & -> & _ & Hp & v & Hv & -> & Hv1 & Hv2). cbn [fst snd] in *. subst.
      exists (GVar v), (c_dollar :: v), [], b. split; auto. split; [reflexivity|]. rewrite app_nil_r.
      split; auto. split; constructor; auto.
    - exact (parse_function_inv _ _ _ _ _ _ _ ET). }
  destruct HT as (g & b & w2 & rest & -> & Hb2 & -> & L & D).
  rewrite ignore_while_span in H. destruct (span1_spec is_whitespace rest) as (E5 & Hw' & _).
  match type of H with bind (p_expect file ?s ?q) _ = _ =>
    destruct (p_expect_total file s q) as [[p1 E]|[e E]]; rewrite E in H; cbn [bind] in H; [|discriminate] end.
  apply p_expect_inv in E as (cs' & E & ->). rewrite E in E5. injection H as <- <-.
  exists g, w, b, (w2 ++ fst (span1 is_whitespace rest)), cs'.
  split; [rewrite E1; rewrite E5 at 1; rewrite <- !app_assoc; reflexivity|]. split; [now apply ws_blank|].
  split; [apply blank_app; auto|]. split; [now rewrite <- !app_assoc|]. auto.
Qed.

Lemma parse_loose_tag ext plugins file pre w1 g b w2 rest k :
  blank w1 -> blank w2 -> loose_tag ext g b -> denotes plugins g k ->
  exists loc, parse_tag ext plugins file (state_at pre (w1 ++ b ++ w2 ++ close_tag ++ rest)) =
  Ok (LTok k loc, state_at (pre ++ w1 ++ b ++ w2 ++ close_tag) rest).
Proof.
  intros H1 H2 Hb Hd. destruct Hb as [v Hv Hf|name w pos named t Hn Hf Hw Hok Ht].
  - apply parse_tag_text with (g := GVar v); auto. now constructor.
  - unfold parse_tag. rewrite fun_name in Hf.
    assert (Hst : stops is_whitespace ((name ++ w ++ [c_lparen] ++ t ++ [c_rparen]) ++ w2 ++ close_tag ++ rest)).
    { destruct name as [|c name]; [congruence|]. cbn in *.
      apply andb_true_iff in Hf as [Hf _]. now apply fun_char_white in Hf. }
    rewrite ignore_while_app by auto.
    destruct (location (state_at (pre ++ w1) _)) as [line col].
    exists (Loc file line col).
    destruct name as [|c0 name0]; [congruence|]. set (name := c0 :: name0) in *.
    assert (Hc : (c0 =? c_dollar) = false).
    { cbn in Hf. apply andb_true_iff in Hf as [Hf _].
      unfold fun_char, is_alnum, c_under, c_colon, is_digit, is_ascii_alpha in Hf.
      unfold c_dollar. destruct (c0 <? 128) eqn:E; lia. }
    replace ((name ++ w ++ [c_lparen] ++ t ++ [c_rparen]) ++ w2 ++ close_tag ++ rest)
      with (name ++ w ++ [c_lparen] ++ t ++ [c_rparen] ++ w2 ++ close_tag ++ rest)
      by (now rewrite <- !app_assoc).
    assert (Hp : forall x, p_peek (state_at (pre ++ w1) (name ++ x)) = Some c0) by reflexivity.
    rewrite Hp, Hc. unfold parse_function. destruct (location _) as [line' col'].
    rewrite extract_while_app; [|auto|].
    2:{ apply stops_blank_then; [intros; now apply white_not_fun|assumption|reflexivity]. }
    unfold name at 1. cbn iota.
    rewrite ignore_while_app; [|auto|reflexivity].
    rewrite p_expect_state. cbn [bind].
    rewrite (parse_loose_args ext file _ _ Ht Hok _ _ [] [] pos named (w2 ++ close_tag ++ rest)).
    2:{ rewrite state_at_chars. rewrite !app_length. cbn [length]. lia. }
    2:{ apply collect_pargs. }
    cbn [bind]. rewrite ignore_while_app; [|auto|reflexivity].
    apply resolve_denotes in Hd as (f & -> & Hr). rewrite Hr. cbn [map_err bind].
    match goal with |- context [ignore_while is_whitespace (state_at ?q (close_tag ++ rest))] =>
      pose proof (ignore_while_app is_whitespace q [] (close_tag ++ rest) eq_refl eq_refl) as HI end.
    rewrite app_nil_r in HI. change ([] ++ close_tag ++ rest) with (close_tag ++ rest) in HI. rewrite HI.
    change [c_rbrace; c_rbrace] with close_tag. rewrite p_expect_state. cbn [bind].
    now rewrite <- !app_assoc.
Qed.

(** Whole templates. *)
Lemma html_loop_loose ext plugins file l r t : loose_template ext l r t ->
  forall ks fuel pos pre, template_tokens plugins l r ks -> (length t < fuel)%nat ->
  exists toks, html_loop fuel ext plugins file pos (state_at pre t) = Ok toks /\ inner toks = ks.
Proof.
  intros Ht. induction Ht as [t r N|t s g w1 b w2 l r t' F H1 H2 Hb Ht IH]; intros ks fuel pos pre Hk Hf;
    (destruct fuel as [|fuel]; [lia|]); cbn [html_loop]; change [c_lbrace; c_lbrace] with open_tag.
  - inversion Hk; subst. destruct (extract_no_tag pre t r N) as (p1 & -> & ->).
    eexists. split; [reflexivity|]. apply inner_raw.
  - inversion Hk as [|? ? ? ? k ks' Hd Hk']; subst.
    destruct (extract_first_tag pre t s _ F) as (src & E & Hl & ->).
    destruct (parse_loose_tag ext plugins file (pre ++ src) w1 g b w2 t' k H1 H2 Hb Hd) as [loc ->].
    cbn [bind].
    destruct (IH ks' fuel
      (location (state_at ((pre ++ src) ++ w1 ++ b ++ w2 ++ close_tag) t'))
      ((pre ++ src) ++ w1 ++ b ++ w2 ++ close_tag) Hk') as (toks & E' & Ei).
    { rewrite !app_length in Hl. lia. }
    rewrite E'. cbn [bind]. eexists. split; [reflexivity|].
    unfold inner in *. rewrite map_app. cbn [map t_inner]. rewrite Ei.
    f_equal. apply inner_raw.
Qed.
Lemma html_loop_means ext plugins file fuel : forall pos pre cs toks,
  html_loop fuel ext plugins file pos (state_at pre cs) = Ok toks -> means ext plugins cs (inner toks).
Proof.
  induction fuel as [|fuel IH]; intros pos pre cs toks H; [discriminate|]. cbn [html_loop] in H.
  change [c_lbrace; c_lbrace] with open_tag in H.
  destruct (scan_text _ cs (le_n _)) as [(raw & rest & F)|(raw & N)].
  - destruct (extract_first_tag pre cs raw rest F) as (src & E & _ & U). rewrite U in H.
    destruct (parse_tag ext plugins file (state_at (pre ++ src) rest)) as [[k p2]| | |] eqn:ET; try discriminate.
    cbn [bind] in H. apply parse_tag_inv in ET as (g & w1 & b & w2 & t' & -> & H1 & H2 & -> & L & D).
    match type of H with context [html_loop fuel ext plugins file ?p ?q] =>
      destruct (html_loop fuel ext plugins file p q) as [toks'| | |] eqn:EL end; try discriminate.
    cbn [bind] in H. injection H as <-. apply IH in EL as (l & r & HL & HK).
    exists ((raw, g) :: l), r. split.
    + eapply lm_tag; eauto.
    + unfold inner in *. rewrite map_app. cbn [map t_inner].
      fold (inner (raw_token file pos raw)). rewrite inner_raw. now constructor.
  - destruct (extract_no_tag pre cs raw N) as (p1 & U & R). rewrite U, R in H. injection H as <-.
    exists [], raw. split; [now constructor|]. rewrite inner_raw. constructor.
Qed.

Theorem parse_means ext plugins file t ks :
  (exists toks, parse_html ext plugins file t = Ok toks /\ map t_inner toks = ks) <-> means ext plugins t ks.
Proof.
  split.
  - intros (toks & H & <-). unfold parse_html in H. rewrite state_at_new in H.
    eapply html_loop_means; eauto.
  - intros (l & r & HL & HK). unfold parse_html. rewrite state_at_new.
    eapply html_loop_loose; eauto.
Qed.
Lemma one_meaning ext plugins t ks ks' : means ext plugins t ks -> means ext plugins t ks' -> ks = ks'.
Proof.
  intros H1 H2. apply (proj2 (parse_means ext plugins [] t ks)) in H1 as (toks & E & <-).
  apply (proj2 (parse_means ext plugins [] t ks')) in H2 as (toks' & E' & <-).
  rewrite E in E'. now injection E' as <-.
Qed.

(** Which templates can be written. *)
Lemma no_tag_escape r : no_tag (escape r) r.
Proof.
  destruct (scan_text _ (escape r) (le_n _)) as [(raw & rest & F)|(raw & N)].
  - destruct (extract_first_tag [] _ _ _ F) as (src & _ & _ & U).
    destruct (extract_until_escape_end [] r) as [E _]. rewrite U in E. discriminate.
  - pose proof (no_tag_replace _ _ N) as R. rewrite (replace_escape (length r)) in R by lia. now subst raw.
Qed.
Lemma until_first_tag cs raw rest q : until_loop open_tag true cs [] (state_at [] cs) = (Some raw, state_at q rest) ->
  first_tag cs raw rest.
Proof.
  intros U. destruct (scan_text _ cs (le_n _)) as [(raw' & rest' & F)|(raw' & N)].
  - destruct (first_tag_until _ _ _ F [] [] (clean_nil cs)) as (src & _ & U'). rewrite U in U'.
    apply pair_equal_spec in U' as [E1 E2]. injection E1 as ->.
    apply (f_equal p_chars) in E2. rewrite !state_at_chars in E2. now subst rest'.
  - pose proof (no_tag_until _ _ N [] [] (clean_nil cs)) as E. rewrite U in E. discriminate.
Qed.
Lemma first_tag_exists s rest : ~ ends_in_backslash s -> exists t, first_tag t s rest.
Proof.
  intros Hb. destruct (begins_dec [c_lbrace] (rev s)) as [[r E]|Hn].
  - apply (f_equal (@rev char)) in E. rewrite rev_involutive in E. cbn [app rev] in E.
    set (u := rev r) in *. exists (escape u ++ escaped_tag ++ [c_lbrace] ++ rest).
    apply (until_first_tag _ _ _ ((([] ++ escape u) ++ escaped_tag) ++ [c_lbrace])).
    rewrite (until_escape (length u)) by (auto; right; exact I). rewrite app_nil_r.
    cbn [escaped_tag app]. rewrite until_step_escaped. cbn [until_loop]. rewrite state_at_advance.
    cbn [rev app open_tag strip_prefix]. rewrite !N.eqb_refl. cbn [andb].
    change (c_lbrace =? c_bslash) with false. cbn iota. cbn [rev].
    rewrite rev_involutive, E. reflexivity.
  - exists (escape s ++ open_tag ++ rest). apply (until_first_tag _ _ _ ([] ++ escape s ++ open_tag)).
    assert (Hs : can_precede_tag s).
    { intros u c ->. split; intros ->.
      - apply Hn. rewrite rev_app_distr. now exists (rev u).
      - apply Hb. now exists u. }
    pose proof (extract_until_escape_tag [] s rest Hs) as U. unfold extract_until in U.
    rewrite state_at_chars in U.
    destruct (until_loop open_tag true (escape s ++ open_tag ++ rest) [] (state_at [] (escape s ++ open_tag ++ rest)))
      as [[x|] y]; [exact U|discriminate].
Qed.
Lemma first_tag_backslash t raw rest : first_tag t raw rest -> ~ ends_in_backslash raw.
Proof.
  induction 1 as [rest|c t raw rest H1 H2 F IH|t raw rest H1 F IH|rest]; intros [u E].
  - destruct u; discriminate.
  - destruct u as [|d u]; cbn [app] in E.
    + injection E as -> ->. apply H2. inversion F; subst. now exists rest.
    + injection E as -> ->. apply IH. now exists u.
  - destruct u as [|d [|d' u]]; cbn [open_tag app] in E; try discriminate.
    injection E as _ _ ->. apply IH. now exists u.
  - destruct u as [|d [|d' u]]; discriminate.
Qed.

Lemma arg_text_exists ext a : arg_ok ext a -> exists t, arg_text a t.
Proof.
  destruct a; intros H; try (eexists; constructor; fail).
  eexists. constructor. apply show_integer.
Qed.
Lemma loose_args_exists ext l : Forall (parg_ok ext) l -> exists t, loose_args l t.
Proof.
  induction 1 as [|[n a] l [Ha Hn] _ [t IH]]; [exists []; now constructor|]. cbn [fst snd] in *.
  destruct (arg_text_exists ext a Ha) as [u Hu].
  assert (exists p, parg_text (n, a) p) as [p Hp].
  { destruct n as [n|]; eexists; constructor; eassumption. }
  exists ([] ++ p ++ [] ++ [c_comma] ++ t). constructor; auto; reflexivity.
Qed.
Lemma loose_tag_exists ext g : tag_ok ext g -> exists b, loose_tag ext g b.
Proof.
  destruct g as [v|name pos named]; cbn [tag_ok].
  - intros [H1 H2]. eexists. constructor; auto.
  - intros (H1 & H2 & H3). destruct (loose_args_exists ext _ H3) as [t Ht].
    exists (name ++ [] ++ [c_lparen] ++ t ++ [c_rparen]). constructor; auto.
Qed.
Lemma loose_tag_ok ext g b : loose_tag ext g b -> tag_ok ext g.
Proof. destruct 1; cbn [tag_ok]; auto. Qed.

Theorem writable ext l r : (exists t, loose_template ext l r t) <->
  Forall (fun sg => ~ ends_in_backslash (fst sg) /\ tag_ok ext (snd sg)) l.
Proof.
  split.
  - intros [t H]. induction H as [|t s g w1 b w2 l r t' F _ _ L _ IH]; constructor; auto.
    cbn [fst snd]. split; [eapply first_tag_backslash; eauto|eapply loose_tag_ok; eauto].
  - induction 1 as [|[s g] l [Hs Hg] _ [t IH]].
    + exists (escape r). constructor. apply no_tag_escape.
    + cbn [fst snd] in *. destruct (loose_tag_exists ext g Hg) as [b Hb].
      destruct (first_tag_exists s ([] ++ b ++ [] ++ close_tag ++ t) Hs) as [t' F].
      exists t'. eapply lm_tag; eauto; reflexivity.
Qed.
Lemma canonical ext l r t : template_text ext l r t -> loose_template ext l r t.
Proof.
  induction 1 as [r|s g w1 b w2 l r t Hs H1 H2 Hb Ht IH].
  - constructor. apply no_tag_escape.
  - apply lm_tag with (w1 := w1) (b := b) (w2 := w2) (t' := t); auto.
    + apply (until_first_tag _ _ _ ([] ++ escape s ++ open_tag)).
      pose proof (extract_until_escape_tag [] s (w1 ++ b ++ w2 ++ close_tag ++ t) Hs) as U. unfold extract_until in U.
      rewrite state_at_chars in U.
      match type of U with match ?m with _ => _ end = _ => destruct m as [[x|] y]; [exact U|discriminate] end.
    + destruct Hb as [v Hv Hf|name w pos named a Hn Hf Hw Hok Ha]; constructor; auto.
      clear -Ha. induction Ha; [now constructor|now constructor|].
      now apply la_more.
Qed.

Lemma backslash_unwritable ext plugins v t rest : ~ means ext plugins t (TRaw [c_bslash] :: TVar v :: rest).
Proof.
  intros (l & r & L & K). destruct L as [t r N|t s g w1 b w2 l r t' F _ _ _ _].
  - inversion K as [x E|]; subst. destruct r; discriminate.
  - inversion K as [|? ? ? ? k ks Hd Hk E1 E2 E3]; subst.
    assert (s = [c_bslash]) as ->.
    { destruct s as [|c s]; cbn [raw_part app] in E3.
      - injection E3 as -> _. inversion Hd.
      - injection E3; intros; subst; reflexivity. }
    apply (first_tag_backslash _ _ _ F). now exists [].
Qed.
