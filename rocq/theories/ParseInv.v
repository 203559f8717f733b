(** ParseInv.v -- what a parse of an arbitrary text can result in (parse/mod.rs). *)

From Coq Require Import String List NArith ZArith Bool Lia Arith.
From Coq Require Import ZifyBool ZifyNat ZifyN.
From Verif Require Import Text TextFacts CharFacts Base Lexer LexerFacts Syntax Parse SpecTemplate SpecLocation
  EscapeFacts CallFacts ParseFacts.
Import ListNotations.
Local Open Scope N_scope.

Lemma location_state pre rest : location (state_at pre rest) = last_position pre.
Proof.
  unfold location, state_at, last_position. cbn [p_line p_col].
  destruct (rev pre) as [|c r] eqn:E.
  - apply (f_equal (@rev char)) in E. rewrite rev_involutive in E. subst. reflexivity.
  - apply (f_equal (@rev char)) in E. rewrite rev_involutive in E. cbn [rev] in E. subst pre.
    rewrite counters_line, counters_col, counters_ncol. reflexivity.
Qed.

(** The quote parity of an argument text. *)
Definition quotes (t : text) : nat := length (filter (fun c => c =? c_quote) t).
Definition ends_in_quote (t : text) : Prop := exists a w, t = a ++ [c_quote] ++ w /\ blank w.
Lemma span_arg_stop cs : forall st c r, snd (span arg_pred st cs) = c :: r -> c = c_rparen \/ c = c_comma.
Proof.
  induction cs as [|x cs IH]; intros st c r; cbn [span]; [discriminate|].
  unfold arg_pred at 1.
  destruct ((if x =? c_quote then negb st else st) || negb (x =? c_rparen) && negb (x =? c_comma)) eqn:E.
  - specialize (IH (if x =? c_quote then negb st else st) c r).
    destruct (span arg_pred _ cs). exact IH.
  - cbn [snd]. intros H. injection H as -> _.
    apply orb_false_iff in E as [_ E]. apply andb_false_iff in E.
    destruct E as [E|E]; apply negb_false_iff, N.eqb_eq in E; auto.
Qed.
Lemma span_arg_parity cs : forall st,
  snd (span arg_pred st cs) <> [] ->
  Nat.even (quotes (fst (span arg_pred st cs)) + (if st then 1 else 0)) = true.
Proof.
  induction cs as [|x cs IH]; intros st; cbn [span]; [cbn [snd]; congruence|].
  unfold arg_pred at 1 3.
  destruct ((if x =? c_quote then negb st else st) || negb (x =? c_rparen) && negb (x =? c_comma)) eqn:E.
  - specialize (IH (if x =? c_quote then negb st else st)).
    destruct (span arg_pred _ cs) as [a b]. cbn [fst snd] in *. intros Hb. specialize (IH Hb).
    assert (Hq : quotes (x :: a) = if x =? c_quote then S (quotes a) else quotes a).
    { unfold quotes. cbn [filter]. destruct (x =? c_quote); reflexivity. }
    rewrite Hq. destruct (x =? c_quote) eqn:Eq; [|exact IH].
    destruct st; cbn [negb] in IH.
    + replace (S (quotes a) + 1)%nat with (S (S (quotes a + 0)))%nat by lia. exact IH.
    + replace (S (quotes a) + 0)%nat with (quotes a + 1)%nat by lia. exact IH.
  - cbn [fst]. intros _. apply orb_false_iff in E as [E1 E2]. destruct st; [|reflexivity].
    destruct (N.eqb_spec x c_quote) as [->|]; [|discriminate]. discriminate.
Qed.

Lemma rawarg_parse_total ext arg :
  (exists a, rawarg_parse ext arg = Ok a) \/ (exists e, rawarg_parse ext arg = Err e) \/
  (exists p, rawarg_parse ext arg = Panic p) /\ arg = [c_quote].
Proof.
  unfold rawarg_parse. destruct (strip_prefix [c_dollar] arg) as [v|]; [destruct (forallb _ v); eauto|].
  destruct (starts_with [c_quote] arg && ends_with [c_quote] arg) eqn:E.
  - apply andb_true_iff in E as [E1 E2]. unfold starts_with in E1.
    destruct (strip_prefix [c_quote] arg) as [r|] eqn:Er; [|discriminate].
    destruct (strip_suffix [c_quote] r) as [s|] eqn:Es; [destruct (contains_char c_quote s); eauto|].
    right; right. split; eauto. apply strip_prefix_spec in Er. subst arg.
    destruct r as [|c r] using rev_ind; auto. clear IHr.
    apply ends_with_spec in E2 as [q E2]. cbn [app] in E2.
    rewrite app_comm_cons in E2. apply app_inj_tail in E2 as [_ ->].
    rewrite strip_suffix_none in Es. now specialize (Es r).
  - destruct (parse_i32 arg); eauto. destruct (is_ident arg); eauto.
Qed.

Lemma add_arg_total ext file p arg pos named :
  (exists r, add_arg ext file p arg pos named = Ok r) \/
  (exists e, add_arg ext file p arg pos named = Err e) \/
  (exists q, add_arg ext file p arg pos named = Panic q) /\
    exists n, arg = n ++ [c_quote] /\ ~ In c_quote n.
Proof.
  unfold add_arg.
  destruct ((match arg with c :: _ => negb (c =? c_quote) | [] => false end) && contains_char c_eq arg) eqn:E.
  - pose proof (splitn2_spec c_eq arg) as Hs. destruct (splitn2 c_eq arg) as [n [v|]]; eauto.
    destruct Hs as [Harg Hn].
    destruct ((match n with [] => true | _ :: _ => false end)
           || (match v with [] => true | _ :: _ => false end)
           || negb (forallb (arg_char ext) n)) eqn:Ec; eauto.
    apply orb_false_iff in Ec as [_ Ec]. apply negb_false_iff in Ec.
    destruct (rawarg_parse_total ext v) as [[a ->]|[[e ->]|[[q ->] Hv]]]; cbn; eauto.
    right; right. split; eauto. exists (n ++ [c_eq]). subst v. rewrite Harg.
    split; [now rewrite <- app_assoc|].
    rewrite in_app_iff. intros [H|[H|[]]]; [|discriminate].
    rewrite forallb_forall in Ec. apply Ec, arg_char_var, var_char_plain in H as [H _].
    discriminate.
  - destruct arg as [|c arg]; eauto. destruct named; eauto.
    destruct (rawarg_parse_total ext (c :: arg)) as [[a ->]|[[e ->]|[[q ->] Hv]]]; cbn; eauto.
    right; right. split; eauto. exists []. auto.
Qed.

Lemma quotes_app a b : quotes (a ++ b) = (quotes a + quotes b)%nat.
Proof. unfold quotes. now rewrite filter_app, app_length. Qed.
Lemma quotes_none a : ~ In c_quote a -> quotes a = O.
Proof.
  unfold quotes. intros H. induction a as [|x a IH]; auto. cbn [filter].
  destruct (N.eqb_spec x c_quote) as [->|]; [exfalso; apply H; now left|].
  apply IH. intros Hin. apply H. now right.
Qed.
Lemma blank_no_quote w : blank w -> ~ In c_quote w.
Proof. intros H Hin. unfold blank in H. rewrite forallb_forall in H. apply H in Hin. discriminate. Qed.

(** Outcomes of a parsing function started at [state_at pre cs]. *)
Definition pout {A} (pre cs : text) (get : A -> parser) (good : A -> text -> Prop) (r : pres A) : Prop :=
  match r with
  | Ok x => exists a b, cs = a ++ b /\ a <> [] /\ get x = state_at (pre ++ a) b /\ good x a
  | Err _ => True
  | Panic _ => ends_in_quote cs
  | OutOfFuel => False
  end.

Lemma ends_in_quote_app a b : ends_in_quote b -> ends_in_quote (a ++ b).
Proof. intros (x & w & -> & H). exists (a ++ x), w. rewrite <- app_assoc. auto. Qed.

Lemma parse_args_out ext file fuel : forall pre cs pos named, (length cs < fuel)%nat ->
  pout pre cs snd (fun _ a => exists a', a = a' ++ [c_rparen])
    (parse_args fuel ext file (state_at pre cs) pos named).
Proof.
  induction fuel as [|fuel IH]; intros pre cs pos named Hf; [lia|].
  cbn [parse_args]. rewrite ignore_while_span, extract_while_st_span.
  destruct (span1_spec is_whitespace cs) as (E1 & Hw & _).
  set (w := fst (span1 is_whitespace cs)) in *. set (cs1 := snd (span1 is_whitespace cs)) in *.
  pose proof (span_app arg_pred false cs1) as E2.
  pose proof (span_arg_stop cs1 false) as Hstop. pose proof (span_arg_parity cs1 false) as Hpar.
  set (raw := fst (span arg_pred false cs1)) in *. set (cs2 := snd (span arg_pred false cs1)) in *.
  destruct (add_arg_total ext file (state_at ((pre ++ w) ++ raw) cs2) (trim raw) pos named)
    as [[[pos' named'] ->]|[[e ->]|[[q ->] (n & En & Hn)]]]; cbn [bind].
  - destruct cs2 as [|c cs3] eqn:Ecs2.
    + cbn. exact I.
    + rewrite p_next_state.
      specialize (Hstop c cs3 eq_refl).
      destruct (N.eqb_spec c c_rparen) as [->|Hc1].
      * cbn [pout]. exists (w ++ raw ++ [c_rparen]), cs3.
        split; [rewrite E1, E2; rewrite <- !app_assoc; reflexivity|].
        split; [destruct w, raw; discriminate|].
        split; [cbn [snd]; now rewrite <- !app_assoc|].
        exists (w ++ raw). now rewrite <- app_assoc.
      * destruct (N.eqb_spec c c_comma) as [->|Hc2]; [|exfalso; tauto].
        assert (Hl : (length cs3 < fuel)%nat).
        { rewrite E1, E2, !app_length in Hf. cbn [length] in Hf. lia. }
        specialize (IH (((pre ++ w) ++ raw) ++ [c_comma]) cs3 pos' named' Hl).
        destruct (parse_args fuel ext file (state_at (((pre ++ w) ++ raw) ++ [c_comma]) cs3) pos' named')
          as [[[pos1 named1] p1]| | |]; cbn [pout] in *; auto.
        -- destruct IH as (a & b & -> & Ha & -> & a' & ->).
           exists (w ++ raw ++ [c_comma] ++ a' ++ [c_rparen]), b.
           split; [rewrite E1, E2; rewrite <- !app_assoc; reflexivity|].
           split; [destruct w, raw; discriminate|].
           split; [now rewrite <- !app_assoc|].
           exists (w ++ raw ++ [c_comma] ++ a'). now rewrite <- !app_assoc.
        -- rewrite E1, E2. apply ends_in_quote_app, ends_in_quote_app.
           apply (ends_in_quote_app [c_comma] cs3), IH.
  - exact I.
  - cbn [pout]. destruct (trim_spec raw) as (x & y & Eraw & Hx & Hy & _). rewrite En in Eraw.
    assert (Hq : quotes raw = 1%nat).
    { rewrite Eraw, !quotes_app, (quotes_none x), (quotes_none y), (quotes_none n);
        auto using blank_no_quote. }
    assert (Hnil : cs2 = []).
    { destruct cs2; auto. specialize (Hpar ltac:(discriminate)). rewrite Hq in Hpar. discriminate. }
    rewrite E1, E2, Hnil, app_nil_r, Eraw.
    exists (w ++ x ++ n), y. split; auto. now rewrite <- !app_assoc.
Qed.

Lemma parse_variable_out ext file pre cs :
  pout pre cs snd (fun tp a => exists v, fst tp = TVar v /\ a = c_dollar :: v /\ v <> [] /\ forallb (var_point ext) v = true)
    (parse_variable ext file (state_at pre cs)).
Proof.
  unfold parse_variable.
  destruct (p_expect_total file [c_dollar] (state_at pre cs)) as [[p' E]|[e E]]; rewrite E; cbn [bind]; [|exact I].
  apply p_expect_inv in E as (cs' & -> & ->). rewrite extract_while_span.
  destruct (span1_spec (var_char ext) cs') as (E1 & Hv & _).
  destruct (fst (span1 (var_char ext) cs')) as [|c v] eqn:Ev; [exact I|].
  cbn [pout]. exists (c_dollar :: c :: v), (snd (span1 (var_char ext) cs')).
  split; [cbn [app]; f_equal; exact E1|]. split; [discriminate|]. cbn [fst snd].
  split; [now rewrite <- app_assoc|]. exists (c :: v). rewrite var_name. repeat split; auto. discriminate.
Qed.

Lemma parse_function_out ext plugins file pre cs :
  pout pre cs snd (fun tp a => exists f name w args w',
      fst tp = TFun f /\ a = name ++ w ++ [c_lparen] ++ args ++ [c_rparen] ++ w' /\
      name <> [] /\ forallb (fun_point ext) name = true /\ blank w /\ blank w')
    (parse_function ext plugins file (state_at pre cs)).
Proof.
  unfold parse_function. destruct (location (state_at pre cs)) as [line col].
  rewrite extract_while_span. destruct (span1_spec (fun_char ext) cs) as (E1 & Hn & _).
  set (name := fst (span1 (fun_char ext) cs)) in *. set (cs1 := snd (span1 (fun_char ext) cs)) in *.
  clearbody name cs1. destruct name as [|c0 name0]; [exact I|].
  set (name := c0 :: name0) in *.
  rewrite ignore_while_span. destruct (span1_spec is_whitespace cs1) as (E2 & Hw & _).
  set (w := fst (span1 is_whitespace cs1)) in *. set (cs2 := snd (span1 is_whitespace cs1)) in *.
  clearbody w cs2.
  destruct (p_expect_total file [c_lparen] (state_at ((pre ++ name) ++ w) cs2)) as [[p' E]|[e E]];
    rewrite E; cbn [bind]; [|exact I].
  apply p_expect_inv in E as (cs3 & -> & ->).
  pose proof (parse_args_out ext file (S (length cs3)) (((pre ++ name) ++ w) ++ [c_lparen]) cs3 [] [] ltac:(lia)) as HA.
  rewrite state_at_chars.
  destruct (parse_args (S (length cs3)) ext file (state_at (((pre ++ name) ++ w) ++ [c_lparen]) cs3) [] [])
    as [[[pos named] p4]|e|q|]; cbn [pout] in HA; cbn [bind].
  - destruct HA as (a & b & -> & Ha & Hp4 & a' & ->). cbn [snd] in Hp4. rewrite Hp4, ignore_while_span.
    destruct (span1_spec is_whitespace b) as (E5 & Hw' & _).
    destruct (resolve_total plugins (RawFn name pos named)) as [[f ->]|[e ->]]; cbn [map_err bind]; [|exact I].
    cbn [pout]. exists (name ++ w ++ [c_lparen] ++ a' ++ [c_rparen] ++ fst (span1 is_whitespace b)),
                       (snd (span1 is_whitespace b)).
    split; [rewrite E1, E2; rewrite E5 at 1; rewrite <- !app_assoc; reflexivity|].
    split; [discriminate|]. cbn [fst snd].
    split; [now rewrite <- !app_assoc|].
    exists f, name, w, a', (fst (span1 is_whitespace b)). rewrite fun_name. repeat split; auto. discriminate.
  - exact I.
  - cbn [pout]. rewrite E1, E2. apply ends_in_quote_app, ends_in_quote_app.
    apply (ends_in_quote_app [c_lparen] cs3), HA.
  - contradiction.
Qed.

Lemma blank_app a b : blank a -> blank b -> blank (a ++ b).
Proof. unfold blank. rewrite forallb_app. intros -> ->. reflexivity. Qed.

Lemma parse_tag_out ext plugins file pre cs :
  pout pre cs snd (fun tp a => exists w body k,
      a = w ++ body ++ close_tag /\ blank w /\ tag_source ext k body /\
      fst tp = LTok k (Loc file (fst (last_position (pre ++ w))) (snd (last_position (pre ++ w)))))
    (parse_tag ext plugins file (state_at pre cs)).
Proof.
  unfold parse_tag. rewrite ignore_while_span, location_state.
  destruct (span1_spec is_whitespace cs) as (E1 & Hw & _).
  set (w := fst (span1 is_whitespace cs)) in *. set (cs1 := snd (span1 is_whitespace cs)) in *.
  clearbody w cs1.
  destruct (last_position (pre ++ w)) as [line col] eqn:EL.
  assert (HT : pout (pre ++ w) cs1 snd (fun tp a => tag_source ext (fst tp) a)
    (match p_peek (state_at (pre ++ w) cs1) with
     | Some c => if c =? c_dollar then parse_variable ext file (state_at (pre ++ w) cs1)
                 else parse_function ext plugins file (state_at (pre ++ w) cs1)
     | None => Err (p_traceback file (state_at (pre ++ w) cs1) PE_UnexpectedEOF)
     end)).
  { destruct (p_peek (state_at (pre ++ w) cs1)) as [c|]; [|exact I].
    destruct (c =? c_dollar).
    - pose proof (parse_variable_out ext file (pre ++ w) cs1) as H.
      destruct (parse_variable ext file (state_at (pre ++ w) cs1)) as [tp| | |]; auto.
      destruct H as (a & b & H1 & H2 & H3 & v & H4 & H5 & H6 & H7). cbn [pout].
      exists a, b. split; auto. split; auto. split; auto. rewrite H4, H5.
      rewrite <- (app_nil_r v) at 2. apply ts_var; auto.
    - pose proof (parse_function_out ext plugins file (pre ++ w) cs1) as H.
      destruct (parse_function ext plugins file (state_at (pre ++ w) cs1)) as [tp| | |]; auto.
      destruct H as (a & b & H1 & H2 & H3 & f & name & w1 & args & w2 & H4 & H5 & H6 & H7 & H8 & H9). cbn [pout].
      exists a, b. split; auto. split; auto. split; auto. rewrite H4, H5. now constructor. }
  match goal with |- context [bind ?m _] => destruct m as [[t p2]|e|q|]; cbn [pout bind] in * end; auto.
  - destruct HT as (a & b & -> & Ha & Hp & HS). cbn [fst snd] in *. subst p2.
    rewrite ignore_while_span. destruct (span1_spec is_whitespace b) as (E5 & Hw' & _).
    destruct (p_expect_total file [c_rbrace; c_rbrace]
      (state_at (((pre ++ w) ++ a) ++ fst (span1 is_whitespace b)) (snd (span1 is_whitespace b)))) as [[p' E]|[e E]];
      rewrite E; cbn [bind pout]; [|exact I].
    apply p_expect_inv in E as (cs' & E & ->). rewrite E in E5.
    exists (w ++ (a ++ fst (span1 is_whitespace b)) ++ close_tag), cs'.
    split; [rewrite E1; rewrite E5 at 1; rewrite <- !app_assoc; reflexivity|].
    split; [destruct w, a; try discriminate; congruence|]. cbn [fst snd].
    split; [now rewrite <- !app_assoc|].
    exists w, (a ++ fst (span1 is_whitespace b)), t. split; auto. split; auto. split; [|now rewrite EL].
    destruct HS as [v w1 Hv Hf Hb|f name w1 args w2 Hn Hf Hb1 Hb2].
    + cbn [app]. rewrite <- app_assoc. apply ts_var; auto. apply blank_app; auto.
    + rewrite <- !app_assoc. apply ts_fun; auto. apply blank_app; auto.
  - rewrite E1. now apply ends_in_quote_app.
Qed.

(** The source of the raw text before a tag. *)
Lemma unescapes_app a b x y : unescapes a b -> unescapes x y -> unescapes (a ++ x) (b ++ y).
Proof.
  induction 1; intros Hx; cbn [app open_tag]; auto.
  - constructor; auto.
  - apply un_escape. auto.
Qed.
Lemma unescapes_refl a : unescapes a a.
Proof. induction a; constructor; auto. Qed.
Lemma unescapes_nil_inv a : unescapes a [] -> a = [].
Proof. intros H. remember [] as b eqn:E. destruct H; auto; discriminate. Qed.
Lemma unescapes_snoc_inv a b c : unescapes a (b ++ [c]) ->
  (exists a', a = a' ++ [c] /\ unescapes a' b) \/
  (exists a' b', a = a' ++ c_bslash :: open_tag /\ b ++ [c] = b' ++ open_tag /\ unescapes a' b').
Proof.
  remember (b ++ [c]) as bc eqn:E. intros H. revert b c E. induction H; intros b0 c0 E.
  - destruct b0; discriminate.
  - destruct b0 as [|x b0].
    + injection E as -> ->. left. exists []. apply unescapes_nil_inv in H as ->. split; auto. constructor.
    + injection E as <- E. destruct (IHunescapes b0 c0 E) as [(a' & -> & Ha)|(a' & b' & -> & Hb & Ha)].
      * left. exists (c :: a'). split; auto. now constructor.
      * right. exists (c :: a'), (c :: b'). cbn [app]. rewrite Hb. repeat split; auto. now constructor.
  - destruct b as [|y b _] using rev_ind.
    + right. apply unescapes_nil_inv in H as ->. exists [], []. rewrite app_nil_r in *. repeat split; auto. constructor.
    + rewrite app_assoc in E. apply app_inj_tail in E as [<- <-].
      destruct (IHunescapes b y eq_refl) as [(a' & -> & Ha)|(a' & b' & -> & Hb & Ha)].
      * left. exists (c_bslash :: open_tag ++ a'). split; [reflexivity|]. now constructor.
      * right. exists (c_bslash :: open_tag ++ a'), (open_tag ++ b'). split; [reflexivity|].
        rewrite <- !app_assoc, Hb. split; auto. now constructor.
Qed.

Definition tracks (consumed racc : text) : Prop :=
  unescapes consumed (rev racc) /\ (racc = [] \/ exists d r q, racc = d :: r /\ consumed = q ++ [d]).

Lemma tracks_escape q r : unescapes (q ++ [c_lbrace]) (rev (c_lbrace :: c_bslash :: r)) ->
  unescapes (q ++ [c_lbrace; c_lbrace]) (rev (c_lbrace :: c_lbrace :: r)).
Proof.
  cbn [rev]. intros H. apply unescapes_snoc_inv in H as [(a & E & H)|(a & b & _ & E & _)].
  - apply app_inj_tail in E as [<- _].
    apply unescapes_snoc_inv in H as [(a & -> & H)|(a & b & _ & E & _)].
    + rewrite <- !app_assoc. apply unescapes_app; auto. apply (un_escape [] []). constructor.
    + change open_tag with ([c_lbrace] ++ [c_lbrace]) in E. rewrite app_assoc in E.
      apply app_inj_tail in E as [_ E]. discriminate.
  - change open_tag with ([c_lbrace] ++ [c_lbrace]) in E. rewrite app_assoc in E.
    apply app_inj_tail in E as [E _]. apply app_inj_tail in E as [_ E]. discriminate.
Qed.

Lemma until_open_inv cs : forall base consumed racc raw p',
  tracks consumed racc ->
  until_loop open_tag true cs racc (state_at (base ++ consumed) cs) = (Some raw, p') ->
  exists src b, consumed ++ cs = src ++ open_tag ++ b /\
    p' = state_at (base ++ src ++ open_tag) b /\ unescapes (src ++ open_tag) (raw ++ open_tag).
Proof.
  induction cs as [|c cs IH]; intros base consumed racc raw p' [HU HT]; cbn [until_loop]; [discriminate|].
  rewrite state_at_advance, <- app_assoc.
  assert (Hc : unescapes (consumed ++ [c]) (rev (c :: racc))).
  { cbn [rev]. apply unescapes_app; auto. apply unescapes_refl. }
  destruct (strip_prefix (rev open_tag) (c :: racc)) as [r|] eqn:E.
  - apply strip_prefix_spec in E. cbn [rev app open_tag] in E.
    injection E as -> E. destruct HT as [->|(d & r0 & q & Er & ->)]; [discriminate|].
    rewrite Er in E. injection E as -> ->. subst racc.
    assert (Hgo : forall raw' p'', raw' = rev r -> p'' = state_at (base ++ (q ++ [c_lbrace]) ++ [c_lbrace]) cs ->
      exists src b, (q ++ [c_lbrace]) ++ c_lbrace :: cs = src ++ open_tag ++ b /\
        p'' = state_at (base ++ src ++ open_tag) b /\ unescapes (src ++ open_tag) (raw' ++ open_tag)).
    { intros raw' p'' -> ->. exists q, cs. split; [now rewrite <- app_assoc|].
      split; [now rewrite <- app_assoc|].
      cbn [rev] in Hc. rewrite <- !app_assoc in Hc. exact Hc. }
    destruct r as [|b r'].
    + intros H. injection H as <- <-. now apply Hgo.
    + cbn [andb]. destruct (N.eqb_spec b c_bslash) as [->|Hb].
      * intros H. rewrite <- app_assoc in H. apply (IH base (q ++ [c_lbrace; c_lbrace])) in H.
        -- rewrite <- app_assoc in *. exact H.
        -- split; [|right; exists c_lbrace, (c_lbrace :: r'), (q ++ [c_lbrace]); now rewrite <- app_assoc].
           apply tracks_escape, HU.
      * intros H. injection H as <- <-. now apply Hgo.
  - intros H. apply IH in H.
    + rewrite <- app_assoc in H. exact H.
    + split; auto. right. exists c, racc, consumed. auto.
Qed.
Lemma extract_until_inv base cs raw p' :
  extract_until open_tag true (state_at base cs) = (Some raw, p') ->
  exists src b, cs = src ++ open_tag ++ b /\
    p' = state_at (base ++ src ++ open_tag) b /\ unescapes (src ++ open_tag) (raw ++ open_tag).
Proof.
  unfold extract_until. rewrite state_at_chars.
  pose proof (until_open_inv cs base [] [] ) as H. rewrite app_nil_r in H.
  destruct (until_loop open_tag true cs [] (state_at base cs)) as [[r|] p1]; [|discriminate].
  intros E. injection E as -> ->. apply H; auto. split; [constructor|now left].
Qed.
Lemma replace_unescapes t : unescapes t (str_replace [c_bslash; c_lbrace; c_lbrace] open_tag t).
Proof.
  unfold str_replace. remember (length t) as n eqn:En. revert t En.
  induction n as [n IH] using lt_wf_ind. intros t ->.
  destruct t as [|c t]; [constructor|]. cbn [replace_aux].
  destruct (strip_prefix [c_bslash; c_lbrace; c_lbrace] (c :: t)) as [r|] eqn:E.
  - apply strip_prefix_spec in E. cbn [app] in E. injection E as -> ->.
    cbn [length Nat.pred replace_aux]. apply un_escape. apply (IH (length r)); auto. simpl; lia.
  - constructor. apply (IH (length t)); auto.
Qed.
Lemma extract_until_chars s esc p p' : extract_until s esc p = (None, p') -> p_chars p' = p_chars p.
Proof.
  unfold extract_until. destruct (until_loop s esc (p_chars p) [] p) as [[r|] p1]; [discriminate|].
  intros H. injection H as <-. reflexivity.
Qed.

Lemma html_loop_out ext plugins file fuel : forall pre cs, (length cs < fuel)%nat ->
  match html_loop fuel ext plugins file (last_position pre) (state_at pre cs) with
  | Ok ks => located ext file pre cs ks
  | Err _ => True
  | Panic _ => ends_in_quote cs
  | OutOfFuel => False
  end.
Proof.
  induction fuel as [|fuel IH]; intros pre cs Hf; [lia|]. cbn [html_loop].
  destruct (extract_until [c_lbrace; c_lbrace] true (state_at pre cs)) as [[raw|] p1] eqn:E.
  - apply extract_until_inv in E as (src & b & -> & -> & HU).
    pose proof (parse_tag_out ext plugins file (pre ++ src ++ open_tag) b) as HT.
    destruct (parse_tag ext plugins file (state_at (pre ++ src ++ open_tag) b)) as [[t p2]| | |];
      cbn [pout bind] in *; auto.
    + destruct HT as (a2 & b2 & -> & Ha2 & Hp2 & w & body & k & -> & Hw & HS & Ht).
      cbn [fst snd] in Hp2, Ht. subst p2 t. rewrite location_state.
      specialize (IH ((pre ++ src ++ open_tag) ++ w ++ body ++ close_tag) b2).
      rewrite !app_length in Hf. cbn [length open_tag close_tag] in Hf.
      specialize (IH ltac:(lia)).
      destruct (html_loop fuel ext plugins file _ _); cbn [bind]; auto.
      * rewrite <- !app_assoc in *. apply lo_tag; auto. exists raw. split; auto.
      * now apply ends_in_quote_app, ends_in_quote_app, ends_in_quote_app.
    + now apply ends_in_quote_app, ends_in_quote_app.
  - apply extract_until_chars in E. rewrite state_at_chars in E. apply lo_end.
    exists (extract_remaining p1). rewrite !app_nil_r. split.
    + unfold extract_remaining. rewrite E. apply replace_unescapes.
    + unfold raw_token. destruct (extract_remaining p1); reflexivity.
Qed.

Theorem parse_html_out ext plugins file input :
  match parse_html ext plugins file input with
  | Ok ks => located ext file [] input ks
  | Err _ => True
  | Panic _ => ends_in_quote input
  | OutOfFuel => False
  end.
Proof.
  unfold parse_html. rewrite state_at_new, location_state. apply html_loop_out. lia.
Qed.

Lemma located_wf ext file pre t ks : located ext file pre t ks -> forall k l, In (LTok k l) ks ->
  match k with
  | TRaw s => s <> []
  | TVar v => v <> [] /\ forallb (var_point ext) v = true
  | TFun _ => True
  end.
Proof.
  assert (HR : forall pos src tail ks', raw_at file pos src tail ks' -> forall k l, In (LTok k l) ks' ->
    exists s, k = TRaw s /\ s <> []).
  { intros pos src tail ks' (s & _ & ->) k l. destruct s; [intros []|].
    intros [H|[]]. injection H as <- _. eexists. split; [reflexivity|discriminate]. }
  induction 1 as [pre t ks H|pre src w body t raw k0 ks Hraw Hw HS HL IH]; intros k l Hin.
  - destruct (HR _ _ _ _ H k l Hin) as (s & -> & Hs). exact Hs.
  - apply in_app_iff in Hin as [Hin|[Hin|Hin]].
    + destruct (HR _ _ _ _ Hraw k l Hin) as (s & -> & Hs). exact Hs.
    + injection Hin as <- _. destruct HS; auto.
    + exact (IH k l Hin).
Qed.

Lemma located_tags ext file pre t ks : located ext file pre t ks -> forall k l, In (LTok k l) ks -> is_tag k ->
  exists before, tag_at ext (pre ++ t) k before /\
    l = Loc file (fst (last_position before)) (snd (last_position before)).
Proof.
  assert (HR : forall pos src tail ks', raw_at file pos src tail ks' -> forall k l, In (LTok k l) ks' -> ~ is_tag k).
  { intros pos src tail ks' (s & _ & ->) k l. destruct s; [intros []|].
    intros [H|[]]. injection H as <- _. auto. }
  induction 1 as [pre t ks H|pre src w body t raw k0 ks Hraw Hw HS HL IH]; intros k l Hin Hk.
  - exfalso. eapply HR; eauto.
  - apply in_app_iff in Hin as [Hin|[Hin|Hin]].
    + exfalso. eapply HR; eauto.
    + injection Hin as <- <-. exists (pre ++ src ++ open_tag ++ w). split; auto.
      exists (pre ++ src), w, body, t. rewrite <- !app_assoc. auto.
    + destruct (IH k l Hin Hk) as (before & HT & ->). exists before. split; auto.
      rewrite <- !app_assoc in HT. exact HT.
Qed.
Lemma tag_at_snoc ext t k before : tag_at ext t k before -> exists q c, before = q ++ [c].
Proof.
  intros (src & w & _ & _ & -> & _). destruct (exists_last (l := src ++ open_tag ++ w)) as (q & c & ->).
  { destruct src; discriminate. }
  eauto.
Qed.
Lemma last_position_snoc q c : last_position (q ++ [c]) = (line_after q, column_after q).
Proof. unfold last_position. rewrite rev_app_distr. cbn [rev app]. now rewrite rev_involutive. Qed.
Lemma newlines_app a b : newlines (a ++ b) = newlines a + newlines b.
Proof. unfold newlines. rewrite count_occ_app. apply Nat2N.inj_add. Qed.
Lemma newlines_none l : ~ In c_lf l -> newlines l = 0.
Proof. intros H. unfold newlines. rewrite (count_occ_not_In N.eq_dec) in H. rewrite H. reflexivity. Qed.
Lemma since_newline_none l : ~ In c_lf l -> since_newline l = l.
Proof.
  intros H. destruct l as [|c l]; auto. cbn [since_newline].
  destruct (N.eqb_spec c c_lf) as [->|]; [exfalso; apply H; now left|].
  destruct (contains_char c_lf l) eqn:E; auto. apply contains_char_spec in E. exfalso. apply H. now right.
Qed.
Lemma since_newline_app p l : ~ In c_lf l -> since_newline (p ++ [c_lf] ++ l) = l.
Proof.
  intros H. induction p as [|c p IH]; cbn [app since_newline].
  - rewrite N.eqb_refl. now apply since_newline_none.
  - change (p ++ c_lf :: l) with (p ++ [c_lf] ++ l). rewrite IH.
    destruct (c =? c_lf); auto.
    replace (contains_char c_lf (p ++ [c_lf] ++ l)) with true; auto.
    symmetry. apply contains_char_spec. apply in_app_iff. right. now left.
Qed.
Lemma column_after_line q l first : last_line_is q l first ->
  column_after q = width l + (if first then 1 else 0).
Proof.
  intros [H1 H2]. unfold column_after. destruct first.
  - subst q. rewrite newlines_none, since_newline_none by auto. cbn [N.eqb]. lia.
  - destruct H2 as [p ->]. rewrite since_newline_app by auto. rewrite !newlines_app.
    change (newlines [c_lf]) with 1. destruct (N.eqb_spec (newlines p + (1 + newlines l)) 0); lia.
Qed.
Lemma last_line_exists q : exists l first, last_line_is q l first.
Proof.
  induction q as [|c q IH] using rev_ind.
  - exists [], true. split; auto.
  - destruct (N.eq_dec c c_lf) as [->|Hc].
    + exists [], false. split; auto. exists q. reflexivity.
    + destruct IH as (l & first & H1 & H2). exists (l ++ [c]), first. split.
      * rewrite in_app_iff. intros [H|[H|[]]]; auto.
      * destruct first; [now subst|]. destruct H2 as [p ->]. exists p. now rewrite <- !app_assoc.
Qed.

Theorem parse_html_tags ext plugins file input toks k loc :
  parse_html ext plugins file input = Ok toks -> In (LTok k loc) toks -> is_tag k ->
  exists q c l first, tag_at ext input k (q ++ [c]) /\ last_line_is q l first /\
    loc = Loc file (1 + newlines q) (width l + (if first then 1 else 0)).
Proof.
  intros H Hin Hk. pose proof (parse_html_out ext plugins file input) as HO. rewrite H in HO.
  destruct (located_tags _ _ _ _ _ HO _ _ Hin Hk) as (before & HT & ->). cbn [app] in HT.
  destruct (tag_at_snoc _ _ _ _ HT) as (q & c & ->). destruct (last_line_exists q) as (l & first & HL).
  exists q, c, l, first. split; auto. split; auto.
  rewrite last_position_snoc. cbn [fst snd]. rewrite (column_after_line _ _ _ HL). reflexivity.
Qed.

Lemma escape_unescapes n : forall t, (length t <= n)%nat -> unescapes (escape t) t.
Proof.
  induction n as [|n IH]; intros t Hn.
  - destruct t; [constructor|simpl in Hn; lia].
  - destruct t as [|c t]; [constructor|]. cbn [length] in Hn.
    destruct (N.eq_dec c c_lbrace) as [->|Hc].
    + destruct (Nat.even (run (c_lbrace :: t))) eqn:He.
      * destruct (escape_even _ He) as (t' & -> & He' & E). rewrite E.
        apply (un_escape (escape t') t'). apply IH. cbn [length] in Hn. lia.
      * cbn [escape]. rewrite He. rewrite N.eqb_refl. cbn [andb]. constructor. apply IH. lia.
    + cbn [escape]. destruct (N.eqb_spec c c_lbrace); [congruence|]. cbn [andb]. constructor. apply IH. lia.
Qed.

Lemma parse_html_total ext plugins file input :
  (exists toks, parse_html ext plugins file input = Ok toks) \/
  (exists e, parse_html ext plugins file input = Err e) \/
  (exists p, parse_html ext plugins file input = Panic p) /\
    exists a w, input = a ++ [c_quote] ++ w /\ blank w.
Proof.
  pose proof (parse_html_out ext plugins file input) as H.
  destruct (parse_html ext plugins file input); eauto; contradiction.
Qed.
Lemma parse_html_lines ext plugins file input toks k loc :
  parse_html ext plugins file input = Ok toks -> In (LTok k loc) toks -> is_tag k ->
  exists q c, tag_at ext input k (q ++ [c]) /\ l_path loc = file /\ l_line loc = 1 + newlines q.
Proof.
  intros H1 H2 H3. destruct (parse_html_tags _ _ _ _ _ _ _ H1 H2 H3) as (q & c & l & first & HT & _ & ->).
  exists q, c. auto.
Qed.
Lemma parse_html_located ext plugins file input toks :
  parse_html ext plugins file input = Ok toks -> located ext file [] input toks.
Proof. intros H. pose proof (parse_html_out ext plugins file input) as HO. now rewrite H in HO. Qed.
Lemma parse_html_wf ext plugins file input toks :
  parse_html ext plugins file input = Ok toks -> forall k loc, In (LTok k loc) toks ->
  match k with
  | TRaw s => s <> []
  | TVar v => v <> [] /\ forall c, In c v -> word_point ext c = true \/ c = c_under \/ c = c_dot
  | TFun _ => True
  end.
Proof.
  intros H k loc Hin. apply parse_html_located in H. apply (located_wf _ _ _ _ _ H) in Hin.
  destruct k as [s|v|f]; auto. destruct Hin as [Hv HF]. split; auto. intros c Hc.
  rewrite forallb_forall in HF. apply HF in Hc. rewrite word_alnum. rewrite var_point_char in Hc. unfold var_char in Hc.
  rewrite !orb_true_iff, !N.eqb_eq in Hc. tauto.
Qed.
