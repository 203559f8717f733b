(** ParseFacts.v -- parsing written templates (parse/mod.rs). *)

From Coq Require Import String List NArith ZArith Bool Lia Arith.
From Coq Require Import ZifyBool ZifyNat ZifyN.
From Verif Require Import Text TextFacts CharFacts Base Lexer LexerFacts Syntax Parse SpecTemplate EscapeFacts CallFacts.
Import ListNotations.
Local Open Scope N_scope.

(** Character classes. *)
Lemma var_char_white ext c : var_char ext c = true -> is_whitespace c = false.
Proof.
  unfold var_char, is_alnum, c_under, c_dot. intros H.
  destruct (c <? 128) eqn:E.
  - unfold is_digit, is_ascii_alpha in H. unfold is_whitespace. lia.
  - destruct (is_whitespace c); auto. rewrite andb_false_r in H. lia.
Qed.
Lemma fun_char_white ext c : fun_char ext c = true -> is_whitespace c = false.
Proof.
  unfold fun_char, is_alnum, c_under, c_colon. intros H.
  destruct (c <? 128) eqn:E.
  - unfold is_digit, is_ascii_alpha in H. unfold is_whitespace. lia.
  - destruct (is_whitespace c); auto. rewrite andb_false_r in H. lia.
Qed.
Lemma arg_char_var ext c : arg_char ext c = true -> var_char ext c = true.
Proof. unfold arg_char, var_char. intros H. now rewrite H. Qed.
Lemma white_not_var ext c : is_whitespace c = true -> var_char ext c = false.
Proof.
  intros H. destruct (var_char ext c) eqn:E; auto. apply var_char_white in E. congruence.
Qed.
Lemma white_not_fun ext c : is_whitespace c = true -> fun_char ext c = false.
Proof.
  intros H. destruct (fun_char ext c) eqn:E; auto. apply fun_char_white in E. congruence.
Qed.
(** Characters that end neither a name nor an argument. *)
Definition plain (c : char) : bool :=
  negb (c =? c_quote) && negb (c =? c_rparen) && negb (c =? c_comma).
Lemma var_char_plain ext c : var_char ext c = true -> plain c = true /\ c <> c_eq /\ c <> c_dollar.
Proof.
  intros H. unfold var_char, is_alnum, c_under, c_dot, is_digit, is_ascii_alpha in H.
  destruct (c <? 128) eqn:E; unfold plain, c_quote, c_rparen, c_comma, c_eq, c_dollar; lia.
Qed.
Lemma white_plain c : is_whitespace c = true -> plain c = true.
Proof. unfold is_whitespace, plain, c_quote, c_rparen, c_comma. lia. Qed.

Lemma forallb_impl {A} (f g : A -> bool) l :
  (forall x, f x = true -> g x = true) -> forallb f l = true -> forallb g l = true.
Proof. intros H. rewrite !forallb_forall. auto. Qed.

(** Arguments. *)
Definition through (t : text) : Prop :=
  forall rest, span arg_pred false (t ++ rest) =
    (t ++ fst (span arg_pred false rest), snd (span arg_pred false rest)).
Lemma through_app a b : through a -> through b -> through (a ++ b).
Proof.
  intros Ha Hb rest. rewrite <- app_assoc, Ha, Hb. cbn [fst snd]. now rewrite app_assoc.
Qed.
Lemma through_plain t : forallb plain t = true -> through t.
Proof.
  intros H rest. induction t as [|c t IH]; cbn [app].
  - now destruct (span arg_pred false rest).
  - cbn [forallb] in H. apply andb_true_iff in H as [Hc H]. cbn [span].
    unfold plain in Hc. unfold arg_pred at 1.
    destruct (c =? c_quote) eqn:Eq; [discriminate|].
    destruct (c =? c_rparen); [discriminate|]. destruct (c =? c_comma); [discriminate|].
    cbn [orb negb andb]. rewrite IH by auto. reflexivity.
Qed.
Lemma span_quoted s rest : ~ In c_quote s ->
  span arg_pred true (s ++ c_quote :: rest) =
  (s ++ c_quote :: fst (span arg_pred false rest), snd (span arg_pred false rest)).
Proof.
  intros H. induction s as [|c s IH]; cbn [app span].
  - unfold arg_pred at 1. rewrite N.eqb_refl. cbn [negb orb].
    replace (c_quote =? c_rparen) with false by reflexivity.
    replace (c_quote =? c_comma) with false by reflexivity. cbn [negb andb].
    now destruct (span arg_pred false rest).
  - simpl in H. unfold arg_pred at 1.
    destruct (N.eqb_spec c c_quote) as [->|]; [tauto|]. cbn [orb].
    rewrite IH by tauto. reflexivity.
Qed.
Lemma through_string s : ~ In c_quote s -> through ([c_quote] ++ s ++ [c_quote]).
Proof.
  intros H rest. rewrite <- app_assoc. cbn [app span]. unfold arg_pred at 1.
  rewrite N.eqb_refl. cbn [negb orb]. rewrite <- app_assoc. cbn [app].
  rewrite span_quoted by auto. rewrite <- app_assoc. reflexivity.
Qed.
Lemma integer_plain t z : integer t z -> forallb plain t = true.
Proof.
  intros H. apply forallb_forall. intros c Hc. apply (integer_chars _ _ H) in Hc as [E|[->| ->]]; [|reflexivity|reflexivity].
  unfold is_digit in E. unfold plain, c_quote, c_rparen, c_comma. lia.
Qed.
Lemma builtin_name_plain b : In b function_parsers ->
  forallb (fun c => is_ascii_alpha c) (builtin_name b) = true /\ parse_i32 (builtin_name b) = None.
Proof.
  simpl. intros H. repeat (destruct H as [<-|H]; [split; reflexivity|]). tauto.
Qed.
Lemma alpha_var ext c : is_ascii_alpha c = true -> var_char ext c = true.
Proof.
  unfold is_ascii_alpha, var_char, is_alnum. intros H.
  assert (c <? 128 = true) as -> by lia. unfold is_ascii_alpha. rewrite H.
  now rewrite orb_true_r.
Qed.
Lemma builtin_ident i : In i builtin_names -> exists b, In b function_parsers /\ i = builtin_name b.
Proof. rewrite builtin_names_eq, in_map_iff. intros (b & <- & H). eauto. Qed.
Lemma arg_text_through ext a t : arg_ok ext a -> arg_text a t -> through t.
Proof.
  intros H Ht. destruct Ht as [v|s|z t Hz|i]; cbn [arg_ok] in H.
  - rewrite var_name in H. apply through_plain. cbn [app forallb]. change (plain c_dollar) with true. cbn [andb].
    eapply forallb_impl; [|exact H]. intros. eapply var_char_plain; eauto.
  - now apply through_string.
  - eapply through_plain, integer_plain, Hz.
  - apply builtin_ident in H as (b & Hb & ->). apply through_plain.
    destruct (builtin_name_plain b Hb) as [H _].
    eapply forallb_impl; [|exact H]. intros x Hx. eapply var_char_plain, (alpha_var (fun _ => false)), Hx.
Qed.
Lemma arg_text_trimmed ext a t : arg_ok ext a -> arg_text a t -> trimmed t.
Proof.
  intros H Ht. destruct Ht as [v|s|z t Hz|i]; cbn [arg_ok] in H.
  - rewrite var_name in H. apply trimmed_nowhite. cbn [app forallb]. change (is_whitespace c_dollar) with false. cbn [negb andb].
    eapply forallb_impl; [|exact H]. intros x Hx. apply var_char_white in Hx. now rewrite Hx.
  - split; [reflexivity|]. rewrite app_assoc, rev_app_distr. reflexivity.
  - apply trimmed_nowhite, forallb_forall. intros c Hc.
    apply (integer_chars _ _ Hz) in Hc as [Hc|[->| ->]]; [|reflexivity|reflexivity].
    unfold is_digit in Hc. unfold is_whitespace. lia.
  - apply builtin_ident in H as (b & Hb & ->). destruct (builtin_name_plain b Hb) as [H _].
    apply trimmed_nowhite. eapply forallb_impl; [|exact H]. intros x Hx.
    apply (alpha_var (fun _ => false)), var_char_white in Hx. now rewrite Hx.
Qed.
Lemma parg_text_through ext a t : parg_ok ext a -> parg_text a t -> through t.
Proof.
  intros [H1 H2] Ht. destruct Ht as [a t Ht|n a t Ht]; cbn [fst snd] in *.
  - eapply arg_text_through; eauto.
  - destruct H2 as [_ H2]. rewrite arg_name in H2. apply through_app; [|apply through_app].
    + apply through_plain. eapply forallb_impl; [|exact H2].
      intros x Hx. eapply var_char_plain, arg_char_var, Hx.
    + now apply through_plain.
    + eapply arg_text_through; eauto.
Qed.
Lemma arg_text_nonempty ext a t : arg_ok ext a -> arg_text a t -> exists c r, t = c :: r.
Proof.
  intros H Ht. destruct t as [|c r] eqn:E; eauto. exfalso.
  inversion Ht; subst; try discriminate.
  - now apply integer_nonempty in H0.
  - cbn [arg_ok] in H. simpl in H.
    repeat (destruct H as [H|H]; [discriminate|]). tauto.
Qed.
Lemma parg_text_trimmed ext a t : parg_ok ext a -> parg_text a t -> trimmed t.
Proof.
  intros [H1 H2] Ht. destruct Ht as [a t Ht|n a t Ht]; cbn [fst snd] in *;
    pose proof (arg_text_trimmed _ _ _ H1 Ht) as [T1 T2]; [split; auto|].
  destruct H2 as [Hn H2]. rewrite arg_name in H2.
  split.
  - destruct n as [|c n]; [congruence|]. cbn [app]. cbn [forallb] in H2.
    apply andb_true_iff in H2 as [Hc _]. eapply var_char_white, arg_char_var, Hc.
  - rewrite !rev_app_distr. destruct (arg_text_nonempty _ _ _ H1 Ht) as (c & r & E).
    destruct (rev t) as [|d q] eqn:Er.
    + rewrite E in Er. cbn in Er. destruct (rev r); discriminate.
    + cbn [app]. exact T2.
Qed.

Lemma rawarg_parse_text ext a t : arg_ok ext a -> arg_text a t -> rawarg_parse ext t = Ok a.
Proof.
  intros H Ht. destruct Ht as [v|s|z t Hz|i]; cbn [arg_ok] in H; unfold rawarg_parse.
  - rewrite var_name in H. cbn [app strip_prefix]. rewrite N.eqb_refl, H. reflexivity.
  - cbn [strip_prefix app]. change (c_dollar =? c_quote) with false. cbn iota.
    assert (H1 : starts_with [c_quote] (c_quote :: s ++ [c_quote]) = true)
      by (apply starts_with_spec; eexists; reflexivity).
    assert (H2 : ends_with [c_quote] (c_quote :: s ++ [c_quote]) = true)
      by (apply ends_with_spec; exists (c_quote :: s); reflexivity).
    rewrite H1, H2. cbn [andb]. rewrite N.eqb_refl.
    assert (H3 : strip_suffix [c_quote] (s ++ [c_quote]) = Some s) by (now apply strip_suffix_spec).
    rewrite H3. apply contains_char_false in H. now rewrite H.
  - rewrite (integer_parse t z Hz H).
    assert (Hd : strip_prefix [c_dollar] t = None).
    { destruct (strip_prefix [c_dollar] t) eqn:E; auto. apply strip_prefix_spec in E.
      assert (Hin : In c_dollar t) by (rewrite E; now left).
      apply (integer_chars _ _ Hz) in Hin as [?|[?|?]]; discriminate. }
    assert (Hq : starts_with [c_quote] t = false).
    { destruct (starts_with [c_quote] t) eqn:E; auto. apply starts_with_spec in E as [r E].
      assert (Hin : In c_quote t) by (rewrite E; now left).
      apply (integer_chars _ _ Hz) in Hin as [?|[?|?]]; discriminate. }
    now rewrite Hd, Hq.
  - apply builtin_ident in H. assert (Hi : is_ident i = true) by (apply is_ident_spec; auto).
    destruct H as (b & Hb & ->). destruct (builtin_name_plain b Hb) as [H Hp].
    rewrite Hp, Hi. clear Hp Hi.
    simpl in Hb. repeat (destruct Hb as [<-|Hb]; [reflexivity|]). tauto.
Qed.

(** What [add_arg] does with one written argument. *)
Definition add_parg (a : parg) (pos : list rawarg) (named : list (text * rawarg))
  : option (list rawarg * list (text * rawarg)) :=
  match fst a with
  | Some n => Some (pos, named ++ [(n, snd a)])
  | None => match named with [] => Some (pos ++ [snd a], named) | _ => None end
  end.
Lemma no_eq_arg ext a t : arg_ok ext a -> arg_text a t ->
  (match t with c :: _ => negb (c =? c_quote) | [] => false end) && contains_char c_eq t = false.
Proof.
  intros H Ht. destruct Ht as [v|s|z t Hz|i]; cbn [arg_ok] in H.
  - rewrite var_name in H. cbn [app]. change (c_dollar =? c_quote) with false. cbn [negb andb].
    apply contains_char_false. intros [E|Hin]; [discriminate|].
    rewrite forallb_forall in H. apply H in Hin. apply var_char_plain in Hin. tauto.
  - reflexivity.
  - apply andb_false_iff. right. apply contains_char_false. intros Hin.
    apply (integer_chars _ _ Hz) in Hin as [?|[?|?]]; discriminate.
  - apply builtin_ident in H. destruct H as (b & Hb & ->). apply andb_false_iff. right.
    simpl in Hb. repeat (destruct Hb as [<-|Hb]; [reflexivity|]). tauto.
Qed.
Lemma add_arg_text ext file p a t pos named : parg_ok ext a -> parg_text a t ->
  add_arg ext file p t pos named =
  match add_parg a pos named with
  | Some r => Ok r
  | None => Err (p_traceback file p PE_PositionalArgAfterNamedArg)
  end.
Proof.
  intros [H1 H2] Ht. destruct Ht as [a t Ht|n a t Ht]; unfold add_parg; cbn [fst snd] in *; unfold add_arg.
  - rewrite (no_eq_arg ext a) by auto.
    destruct (arg_text_nonempty _ _ _ H1 Ht) as (d & r & E). rewrite E. rewrite <- E.
    destruct named; [|reflexivity]. rewrite (rawarg_parse_text ext a) by auto. reflexivity.
  - destruct H2 as [Hn H2]. rewrite arg_name in H2.
    assert (Hq : ~ In c_eq n).
    { intros Hin. rewrite forallb_forall in H2. apply H2, arg_char_var, var_char_plain in Hin. tauto. }
    assert (Hhead : (match n ++ [c_eq] ++ t with c :: _ => negb (c =? c_quote) | [] => false end) = true).
    { destruct n as [|c n]; [congruence|]. cbn [app]. cbn [forallb] in H2.
      apply andb_true_iff in H2 as [Hc _]. apply arg_char_var, var_char_plain in Hc as [Hc _].
      unfold plain in Hc. lia. }
    assert (Hc : contains_char c_eq (n ++ [c_eq] ++ t) = true).
    { apply contains_char_spec, in_app_iff. right. now left. }
    rewrite Hhead, Hc. cbn [andb]. cbn [app]. rewrite splitn2_app by auto.
    rewrite H2. destruct n as [|c n]; [congruence|]. cbn [orb negb].
    destruct (arg_text_nonempty _ _ _ H1 Ht) as (d & r & E). rewrite E. rewrite <- E.
    cbn [orb]. rewrite (rawarg_parse_text ext a) by auto. reflexivity.
Qed.

Fixpoint collect (l : list parg) (pos : list rawarg) (named : list (text * rawarg))
  : option (list rawarg * list (text * rawarg)) :=
  match l with
  | [] => Some (pos, named)
  | a :: l' => match add_parg a pos named with
               | Some (pos', named') => collect l' pos' named'
               | None => None
               end
  end.
Lemma collect_named named : forall pos named0,
  collect (map (fun na => (Some (fst na), snd na)) named) pos named0 = Some (pos, named0 ++ named).
Proof.
  induction named as [|[n a] named IH]; intros pos named0; cbn.
  - now rewrite app_nil_r.
  - rewrite IH, <- app_assoc. reflexivity.
Qed.
Lemma collect_pargs_gen pos named : forall pos0,
  collect (pargs pos named) pos0 [] = Some (pos0 ++ pos, named).
Proof.
  unfold pargs. induction pos as [|a pos IH]; intros pos0; cbn [map app collect].
  - rewrite collect_named, app_nil_r. reflexivity.
  - cbn [add_parg fst snd]. rewrite IH, <- app_assoc. reflexivity.
Qed.
Lemma collect_pargs pos named : collect (pargs pos named) [] [] = Some (pos, named).
Proof. apply (collect_pargs_gen pos named []). Qed.

Lemma blank_plain w : blank w -> forallb plain w = true.
Proof. intros H. apply blank_ws in H. revert H. apply forallb_impl, white_plain. Qed.

(** One round of the argument loop. *)
Lemma arg_round ext pre w1 a p w2 rest :
  blank w1 -> blank w2 -> parg_ok ext a -> parg_text a p -> span arg_pred false rest = ([], rest) ->
  extract_while_st arg_pred false
    (ignore_while is_whitespace (state_at pre (w1 ++ p ++ w2 ++ rest))) =
  (p ++ w2, state_at (pre ++ w1 ++ p ++ w2) rest).
Proof.
  intros H1 H2 Ha Hp Hr. rewrite ignore_while_app; auto.
  - rewrite extract_while_st_span. rewrite app_assoc.
    rewrite (through_app p w2);
      [|eapply parg_text_through; eauto|apply through_plain, blank_plain; auto].
    rewrite Hr. cbn [fst snd]. rewrite app_nil_r. now rewrite <- !app_assoc.
  - destruct (parg_text_trimmed _ _ _ Ha Hp) as [T _].
    destruct p as [|c r] eqn:E; [|exact T].
    exfalso. subst p. inversion Hp as [a' t' Ht E1 E2|n a' t' Ht E1 E2]; subst; destruct Ha as [Ha Hn]; cbn [fst snd] in *.
    + destruct (arg_text_nonempty _ _ _ Ha Ht) as (c & r & E'). discriminate.
    + destruct n; discriminate.
Qed.
Lemma trim_parg ext a p w2 : parg_ok ext a -> parg_text a p -> blank w2 -> trim (p ++ w2) = p.
Proof.
  intros Ha Hp Hw. apply (trim_pad [] p w2); auto. eapply parg_text_trimmed; eauto.
Qed.
Lemma span_sep c rest : c = c_rparen \/ c = c_comma -> span arg_pred false (c :: rest) = ([], c :: rest).
Proof. intros [->| ->]; reflexivity. Qed.

Definition is_err_kind {A} (k : parse_error) (r : res (traceback parse_error) A) : Prop :=
  exists e, r = Err e /\ tb_kind e = k.

Lemma parse_args_text ext file l t : args_text l t -> Forall (parg_ok ext) l ->
  forall fuel pre pos named rest, (length l < fuel)%nat ->
  match collect l pos named with
  | Some (pos', named') =>
      parse_args fuel ext file (state_at pre (t ++ [c_rparen] ++ rest)) pos named =
      Ok (pos', named', state_at (pre ++ t ++ [c_rparen]) rest)
  | None => is_err_kind PE_PositionalArgAfterNamedArg
      (parse_args fuel ext file (state_at pre (t ++ [c_rparen] ++ rest)) pos named)
  end.
Proof.
  intros Ht. induction Ht as [w Hw|w1 a p w2 H1 H2 Hp|w1 a p w2 b l t H1 H2 Hp Ht IH]; intros Hok fuel pre pos named rest Hf.
  - destruct fuel as [|fuel]; [cbn in Hf; lia|]. cbn [collect parse_args].
    rewrite ignore_while_app; [|auto|reflexivity].
    rewrite extract_while_st_span. cbn [app]. rewrite span_sep by auto. cbn [fst snd].
    change (trim []) with (@nil char). cbn [add_arg andb bind].
    rewrite p_next_state. rewrite N.eqb_refl. rewrite app_nil_r. now rewrite <- app_assoc.
  - destruct fuel as [|fuel]; [cbn in Hf; lia|].
    inversion Hok as [|? ? Ha _]; subst. cbn [collect parse_args].
    rewrite <- !app_assoc. rewrite arg_round with (ext := ext) (a := a); auto.
    rewrite trim_parg with (ext := ext) (a := a) by auto. rewrite (add_arg_text ext file _ a) by auto.
    destruct (add_parg a pos named) as [[pos' named']|]; cbn [bind].
    + cbn [app]. rewrite p_next_state, N.eqb_refl. now rewrite <- !app_assoc.
    + eexists; split; reflexivity.
  - destruct fuel as [|fuel]; [cbn in Hf; lia|].
    inversion Hok as [|? ? Ha Hok']; subst. cbn [collect parse_args].
    rewrite <- !app_assoc. rewrite arg_round with (ext := ext) (a := a); auto.
    rewrite trim_parg with (ext := ext) (a := a) by auto. rewrite (add_arg_text ext file _ a) by auto.
    destruct (add_parg a pos named) as [[pos' named']|] eqn:Ea; cbn [bind].
    + cbn [app]. rewrite p_next_state.
      change (c_comma =? c_rparen) with false. rewrite N.eqb_refl. cbn iota.
      specialize (IH Hok' fuel (pre ++ w1 ++ p ++ w2 ++ [c_comma]) pos' named' rest).
      cbn [length] in Hf, IH. specialize (IH ltac:(lia)).
      replace ((pre ++ w1 ++ p ++ w2) ++ [c_comma])
        with (pre ++ w1 ++ p ++ w2 ++ [c_comma]) by (now rewrite <- !app_assoc).
      replace (pre ++ w1 ++ p ++ w2 ++ c_comma :: t ++ [c_rparen])
        with ((pre ++ w1 ++ p ++ w2 ++ [c_comma]) ++ t ++ [c_rparen])
        by (now rewrite <- !app_assoc).
      exact IH.
    + eexists; split; reflexivity.
Qed.

Lemma args_text_length l t : args_text l t -> (length l <= S (length t))%nat.
Proof.
  induction 1; cbn [length]; try lia. rewrite !app_length. cbn [length] in *. lia.
Qed.

Lemma stops_blank_then f w c r : (forall x, is_whitespace x = true -> f x = false) ->
  blank w -> f c = false -> stops f (w ++ c :: r).
Proof.
  intros H Hw Hc. destruct w as [|x w]; cbn; auto.
  apply blank_ws, andb_true_iff in Hw as [Hx _]. auto.
Qed.

(** A call. *)
Lemma parse_function_text ext plugins file pre name w pos named t rest k :
  name <> [] -> forallb (fun_point ext) name = true -> blank w ->
  Forall (parg_ok ext) (pargs pos named) -> args_text (pargs pos named) t ->
  denotes plugins (GCall name pos named) k ->
  exists w2 rest', rest = w2 ++ rest' /\ blank w2 /\ stops is_whitespace rest' /\
  parse_function ext plugins file (state_at pre (name ++ w ++ [c_lparen] ++ t ++ [c_rparen] ++ rest)) =
  Ok (k, state_at (pre ++ (name ++ w ++ [c_lparen] ++ t ++ [c_rparen]) ++ w2) rest').
Proof.
  intros Hn Hf Hw Hok Ht Hd. rewrite fun_name in Hf.
  destruct (span1_spec is_whitespace rest) as (E & Hb & Hs).
  exists (fst (span1 is_whitespace rest)), (snd (span1 is_whitespace rest)).
  split; [exact E|]. split; [auto|]. split; [exact Hs|].
  unfold parse_function. destruct (location _) as [line col].
  rewrite extract_while_app; [|auto|].
  2:{ apply stops_blank_then; [intros; now apply white_not_fun|assumption|reflexivity]. }
  destruct name as [|c0 name0]; [congruence|]. set (name := c0 :: name0) in *.
  rewrite ignore_while_app; [|auto|reflexivity].
  rewrite p_expect_state. cbn [bind].
  pose proof (parse_args_text ext file _ _ Ht Hok
    (S (length (p_chars (state_at (((pre ++ name) ++ w) ++ [c_lparen]) (t ++ [c_rparen] ++ rest)))))
    (((pre ++ name) ++ w) ++ [c_lparen]) [] [] rest) as HA.
  rewrite collect_pargs in HA. rewrite HA; clear HA.
  2:{ rewrite state_at_chars. rewrite !app_length. cbn [length].
      pose proof (args_text_length _ _ Ht). lia. }
  cbn [bind]. rewrite ignore_while_span.
  apply resolve_denotes in Hd as (f & -> & Hr). rewrite Hr. cbn [map_err bind].
  now rewrite <- !app_assoc.
Qed.

(** A tag. *)
Lemma parse_tag_text ext plugins file pre w1 g b w2 rest k :
  blank w1 -> blank w2 -> tag_body ext g b -> denotes plugins g k ->
  exists loc, parse_tag ext plugins file (state_at pre (w1 ++ b ++ w2 ++ close_tag ++ rest)) =
  Ok (LTok k loc, state_at (pre ++ w1 ++ b ++ w2 ++ close_tag) rest).
Proof.
  intros H1 H2 Hb Hd. unfold parse_tag.
  assert (Hst : stops is_whitespace (b ++ w2 ++ close_tag ++ rest)).
  { destruct Hb as [v Hv Hf|name w pos named t Hn Hf Hw Hok Ht]; [reflexivity|].
    destruct name as [|c name]; [congruence|]. rewrite fun_name in Hf. cbn in *.
    apply andb_true_iff in Hf as [Hf _]. now apply fun_char_white in Hf. }
  rewrite ignore_while_app by auto.
  destruct (location (state_at (pre ++ w1) (b ++ w2 ++ close_tag ++ rest))) as [line col].
  exists (Loc file line col).
  destruct Hb as [v Hv Hf|name w pos named t Hn Hf Hw Hok Ht].
  - inversion Hd; subst. unfold p_peek. rewrite state_at_chars. cbn [app].
    rewrite N.eqb_refl. unfold parse_variable.
    change (c_dollar :: v ++ w2 ++ close_tag ++ rest) with ([c_dollar] ++ v ++ w2 ++ close_tag ++ rest).
    rewrite p_expect_state. cbn [bind].
    rewrite var_name in Hf. rewrite extract_while_app; [|auto|].
    2:{ apply stops_blank_then; [intros; now apply white_not_var|assumption|reflexivity]. }
    destruct v as [|c v]; [congruence|]. cbn [bind].
    rewrite ignore_while_app; [|auto|reflexivity].
    rewrite p_expect_state. cbn [bind]. now rewrite <- !app_assoc.
  - destruct name as [|c0 name0]; [congruence|]. set (name := c0 :: name0) in *.
    assert (Hc : (c0 =? c_dollar) = false).
    { rewrite fun_name in Hf. cbn in Hf. apply andb_true_iff in Hf as [Hf _].
      unfold fun_char, is_alnum, c_under, c_colon, is_digit, is_ascii_alpha in Hf.
      unfold c_dollar. destruct (c0 <? 128) eqn:E; lia. }
    assert (Hn' : name <> []) by discriminate.
    destruct (parse_function_text ext plugins file (pre ++ w1) name w pos named t (w2 ++ close_tag ++ rest) k
      Hn' Hf Hw Hok Ht Hd) as (w2' & rest' & E & Hw2 & Hs & HP).
    replace ((name ++ w ++ [c_lparen] ++ t ++ [c_rparen]) ++ w2 ++ close_tag ++ rest)
      with (name ++ w ++ [c_lparen] ++ t ++ [c_rparen] ++ w2 ++ close_tag ++ rest)
      by (now rewrite <- !app_assoc).
    assert (Hp : forall x, p_peek (state_at (pre ++ w1) (name ++ x)) = Some c0) by reflexivity.
    rewrite Hp, Hc. rewrite HP. cbn [bind].
    assert (Hw' : w2 = w2' /\ close_tag ++ rest = rest').
    { pose proof (span1_app is_whitespace w2 (close_tag ++ rest) (blank_ws _ H2) eq_refl) as S1.
      pose proof (span1_app is_whitespace w2' rest' (blank_ws _ Hw2) Hs) as S2. rewrite E in S1. rewrite S1 in S2.
      split; [exact (f_equal fst S2)|exact (f_equal snd S2)]. }
    destruct Hw' as [<- <-].
    pose proof (ignore_while_app is_whitespace
      (((pre ++ w1) ++ (name ++ w ++ [c_lparen] ++ t ++ [c_rparen]) ++ w2)) [] (close_tag ++ rest) eq_refl eq_refl) as HI.
    rewrite app_nil_r in HI. change ([] ++ close_tag ++ rest) with (close_tag ++ rest) in HI. rewrite HI.
    change [c_rbrace; c_rbrace] with close_tag. rewrite p_expect_state. cbn [bind].
    now rewrite <- !app_assoc.
Qed.

(** Whole templates. *)
Definition inner (l : list ltoken) : list token := map t_inner l.
Lemma inner_raw file pos s : inner (raw_token file pos s) = raw_part s.
Proof. destruct s; reflexivity. Qed.

Lemma html_loop_text ext plugins file l r t : template_text ext l r t ->
  forall ks fuel pos pre, template_tokens plugins l r ks -> (length l < fuel)%nat ->
  exists toks, html_loop fuel ext plugins file pos (state_at pre t) = Ok toks /\ inner toks = ks.
Proof.
  intros Ht. induction Ht as [r|s g w1 b w2 l r t Hs H1 H2 Hb Ht IH]; intros ks fuel pos pre Hk Hf.
  - destruct fuel as [|fuel]; [lia|]. inversion Hk; subst. cbn [html_loop].
    destruct (extract_until_escape_end pre r) as [E1 E2].
    change [c_lbrace; c_lbrace] with open_tag.
    destruct (extract_until open_tag true (state_at pre (escape r))) as [o p1].
    cbn [fst snd] in E1, E2. subst o.
    rewrite (extract_remaining_escape p1 r E2). eexists. split; [reflexivity|]. apply inner_raw.
  - destruct fuel as [|fuel]; [cbn in Hf; lia|]. inversion Hk as [|? ? ? ? k ks' Hd Hk']; subst. cbn [html_loop].
    change [c_lbrace; c_lbrace] with open_tag.
    rewrite extract_until_escape_tag by auto.
    destruct (parse_tag_text ext plugins file (pre ++ escape s ++ open_tag) w1 g b w2 t k H1 H2 Hb Hd)
      as [loc ->].
    cbn [bind].
    destruct (IH ks' fuel
      (location (state_at ((pre ++ escape s ++ open_tag) ++ w1 ++ b ++ w2 ++ close_tag) t))
      ((pre ++ escape s ++ open_tag) ++ w1 ++ b ++ w2 ++ close_tag) Hk') as (toks & E & Ei).
    { cbn in Hf. lia. }
    rewrite E. cbn [bind]. eexists. split; [reflexivity|].
    unfold inner in *. rewrite map_app. cbn [map t_inner]. rewrite Ei.
    f_equal. apply inner_raw.
Qed.
Lemma template_text_length ext l r t : template_text ext l r t -> (length l <= length t)%nat.
Proof.
  induction 1; cbn [length]; [lia|]. rewrite !app_length. cbn [length open_tag]. lia.
Qed.
Lemma parse_template ext plugins file l r t ks :
  template_text ext l r t -> template_tokens plugins l r ks ->
  exists toks, parse_html ext plugins file t = Ok toks /\ inner toks = ks.
Proof.
  intros Ht Hk. unfold parse_html. rewrite state_at_new.
  eapply html_loop_text; eauto. apply template_text_length in Ht. lia.
Qed.
