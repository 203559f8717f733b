(** ParseErr.v -- calls that are rejected, and the converse of [parse_template]. *)

From Coq Require Import String List NArith ZArith Bool Lia Arith.
From Coq Require Import ZifyBool ZifyNat ZifyN.
From Verif Require Import Text TextFacts CharFacts Base Lexer LexerFacts Syntax Parse SpecTemplate
  EscapeFacts CallFacts ParseFacts.
Import ListNotations.
Local Open Scope N_scope.

(** [collect] fails exactly on misplaced arguments. *)
Lemma collect_some l : forall pos named r, collect l pos named = Some r ->
  exists pos' named', l = pargs pos' named' /\ r = (pos ++ pos', named ++ named') /\ (named <> [] -> pos' = []).
Proof.
  induction l as [|[[n|] a] l IH]; intros pos named r; cbn [collect add_parg fst snd].
  - intros H. injection H as <-. exists [], []. rewrite !app_nil_r. auto.
  - intros H. apply IH in H as (pos' & named' & -> & -> & Hn).
    assert (pos' = []) as -> by (apply Hn; destruct named; discriminate).
    exists [], ((n, a) :: named'). split; [reflexivity|]. rewrite <- app_assoc. auto.
  - destruct named; [|discriminate]. intros H. apply IH in H as (pos' & named' & -> & -> & Hn).
    exists (a :: pos'), named'. split; [reflexivity|]. rewrite <- app_assoc. split; auto. congruence.
Qed.
Lemma collect_misplaced l : misplaced l -> collect l [] [] = None.
Proof.
  intros (l1 & n & a & l2 & b & l3 & ->).
  destruct (collect _ [] []) as [r|] eqn:E; auto.
  apply collect_some in E as (pos & named & E & _ & _). exfalso. unfold pargs in E.
  revert pos E. induction l1 as [|x l1 IH]; intros [|y pos] E; cbn [map app] in E.
  - destruct named as [|na named]; [discriminate|]. cbn [map app] in E. injection E as _ _ E.
    revert named E. induction l2 as [|z l2 IH2]; intros [|nb named] E; try discriminate.
    cbn [map app] in E. injection E as _ E. eauto.
  - discriminate.
  - destruct named as [|na named]; [discriminate|]. cbn [map app] in E. injection E as _ E.
    specialize (IH [] ). cbn [map app] in IH.
    revert na named E IH. clear. intros na named E _.
    assert (H : forall m l, l ++ (Some n, a) :: l2 ++ (None, b) :: l3 = map (fun na => (Some (fst na), snd na)) m -> False).
    { clear. intros m l E. assert (Hin : In (None, b) (map (fun na : text * rawarg => (Some (fst na), snd na)) m)).
      { rewrite <- E. apply in_app_iff. right. right. apply in_app_iff. right. now left. }
      apply in_map_iff in Hin as (z & Hz & _). discriminate. }
    exact (H _ _ E).
  - injection E as _ E. eauto.
Qed.

(** The outcome of a call with well-formed arguments. *)
Definition call_outcome (plugins : fn_table) (name : text) (l : list parg) : option parse_error :=
  match collect l [] [] with
  | None => Some PE_PositionalArgAfterNamedArg
  | Some (pos, named) =>
      match resolve plugins (RawFn name pos named) with
      | Err None => Some (PE_NonexistentFunction name)
      | Err (Some e) => Some e
      | _ => None
      end
  end.

Lemma parse_function_err ext plugins file pre name l t rest k :
  call_text ext name l t -> call_outcome plugins name l = Some k ->
  fails_with k (parse_function ext plugins file (state_at pre (t ++ rest))).
Proof.
  intros Hc Hk. destruct Hc as [name w l t Hn Hf Hw Hok Ht]. rewrite fun_name in Hf.
  rewrite <- !app_assoc. unfold parse_function. destruct (location _) as [line col].
  rewrite extract_while_app; [|auto|].
  2:{ apply stops_blank_then; [intros; now apply white_not_fun|assumption|reflexivity]. }
  destruct name as [|c0 name0]; [congruence|]. set (name := c0 :: name0) in *.
  rewrite ignore_while_app; [|auto|reflexivity].
  rewrite p_expect_state. cbn [bind].
  pose proof (parse_args_text ext file _ _ Ht Hok
    (S (length (p_chars (state_at (((pre ++ name) ++ w) ++ [c_lparen]) (t ++ [c_rparen] ++ rest)))))
    (((pre ++ name) ++ w) ++ [c_lparen]) [] [] rest) as HA.
  unfold call_outcome in Hk.
  destruct (collect l [] []) as [[pos named]|].
  - rewrite HA; clear HA.
    2:{ rewrite state_at_chars. rewrite !app_length. cbn [length].
        pose proof (args_text_length _ _ Ht). lia. }
    cbn [bind]. destruct (resolve plugins (RawFn name pos named)) as [f|[e|]| |]; try discriminate;
      injection Hk as <-; cbn [map_err bind]; eexists; split; reflexivity.
  - injection Hk as <-.
    destruct HA as (e & -> & He).
    { rewrite state_at_chars. rewrite !app_length. cbn [length].
      pose proof (args_text_length _ _ Ht). lia. }
    cbn [bind]. exists e. auto.
Qed.

Lemma parse_tag_err ext plugins file pre w1 name l t rest k :
  blank w1 -> call_text ext name l t -> call_outcome plugins name l = Some k ->
  fails_with k (parse_tag ext plugins file (state_at pre (w1 ++ t ++ rest))).
Proof.
  intros H1 Hc Hk. unfold parse_tag.
  assert (Hh : exists c r, t = c :: r /\ is_whitespace c = false /\ (c =? c_dollar) = false).
  { destruct Hc as [name w l t Hn Hf Hw Hok Ht]. destruct name as [|c name]; [congruence|].
    rewrite fun_name in Hf. cbn [forallb] in Hf. apply andb_true_iff in Hf as [Hf _]. exists c. eexists. split; [reflexivity|].
    split; [now apply fun_char_white in Hf|].
    unfold fun_char, is_alnum, c_under, c_colon, is_digit, is_ascii_alpha in Hf.
    unfold c_dollar. destruct (c <? 128) eqn:E; lia. }
  destruct Hh as (c & r & Et & Hw & Hd).
  rewrite ignore_while_app; [|auto|rewrite Et; exact Hw].
  destruct (location _) as [line col].
  assert (Hp : p_peek (state_at (pre ++ w1) (t ++ rest)) = Some c) by (rewrite Et; reflexivity).
  rewrite Hp, Hd.
  destruct (parse_function_err ext plugins file (pre ++ w1) name l t rest k Hc Hk) as (e & -> & He).
  cbn [bind]. exists e. auto.
Qed.

Lemma html_loop_prefix ext plugins file l t : tags_text ext l t ->
  forall ks fuel pos pre rest, Forall2 (fun sg k => denotes plugins (snd sg) k) l ks ->
  exists toks pos',
    html_loop (length l + fuel) ext plugins file pos (state_at pre (t ++ rest)) =
    bind (html_loop fuel ext plugins file pos' (state_at (pre ++ t) rest)) (fun r => Ok (toks ++ r)).
Proof.
  intros Ht. induction Ht as [|s g w1 b w2 l t Hs H1 H2 Hb Ht IH]; intros ks fuel pos pre rest Hk.
  - exists [], pos. rewrite app_nil_r. cbn [length Nat.add app].
    destruct (html_loop fuel ext plugins file pos (state_at pre rest)); reflexivity.
  - inversion Hk as [|? k ? ks' Hd Hk']; subst. cbn [length Nat.add html_loop].
    change [c_lbrace; c_lbrace] with open_tag.
    rewrite <- !app_assoc. rewrite extract_until_escape_tag by auto. cbn [snd] in Hd.
    destruct (parse_tag_text ext plugins file (pre ++ escape s ++ open_tag) w1 g b w2 (t ++ rest) k H1 H2 Hb Hd)
      as [loc ->].
    cbn [bind].
    destruct (IH ks' fuel
      (location (state_at ((pre ++ escape s ++ open_tag) ++ w1 ++ b ++ w2 ++ close_tag) (t ++ rest)))
      ((pre ++ escape s ++ open_tag) ++ w1 ++ b ++ w2 ++ close_tag) rest Hk') as (toks & pos' & E).
    rewrite E. exists (raw_token file pos s ++ LTok k loc :: toks), pos'.
    replace (((pre ++ escape s ++ open_tag) ++ w1 ++ b ++ w2 ++ close_tag) ++ t)
      with (pre ++ escape s ++ open_tag ++ w1 ++ b ++ w2 ++ close_tag ++ t) by (now rewrite <- !app_assoc).
    match goal with |- context [html_loop fuel ext plugins file pos' ?q] =>
      destruct (html_loop fuel ext plugins file pos' q) end; cbn [bind]; auto.
    now rewrite <- app_assoc.
Qed.
Lemma tags_text_length ext l t : tags_text ext l t -> (length l <= length t)%nat.
Proof.
  induction 1; cbn [length]; [lia|]. rewrite !app_length. cbn [length open_tag]. lia.
Qed.

Lemma parse_call_err ext plugins file l t ks s w1 name args c rest k :
  tags_text ext l t -> Forall2 (fun sg k => denotes plugins (snd sg) k) l ks ->
  can_precede_tag s -> blank w1 -> call_text ext name args c -> call_outcome plugins name args = Some k ->
  fails_with k (parse_html ext plugins file (t ++ escape s ++ open_tag ++ w1 ++ c ++ rest)).
Proof.
  intros Ht Hk Hs Hw Hc Ho. unfold parse_html. rewrite state_at_new.
  set (r := escape s ++ open_tag ++ w1 ++ c ++ rest).
  assert (Hl : exists fuel, S (length (t ++ r)) = (length l + S fuel)%nat).
  { exists (length (t ++ r) - length l)%nat. rewrite app_length. apply tags_text_length in Ht. lia. }
  destruct Hl as [fuel ->].
  destruct (html_loop_prefix ext plugins file l t Ht ks (S fuel) (location (state_at [] (t ++ r))) [] r Hk)
    as (toks & pos' & ->).
  cbn [html_loop]. change [c_lbrace; c_lbrace] with open_tag. unfold r.
  rewrite extract_until_escape_tag by auto.
  destruct (parse_tag_err ext plugins file (([] ++ t) ++ escape s ++ open_tag) w1 name args c rest k Hw Hc Ho)
    as (e & -> & He).
  cbn [bind]. exists e. auto.
Qed.

Lemma unknown_outcome plugins name pos named : unknown plugins name ->
  call_outcome plugins name (pargs pos named) = Some (PE_NonexistentFunction name).
Proof.
  intros [Hb Hp]. unfold call_outcome. rewrite collect_pargs. unfold resolve. cbn [rf_name].
  rewrite builtin_names_eq in Hb. apply find_builtin_none in Hb. rewrite Hb.
  pose proof (find_plugin_spec name plugins) as H. destruct (find_plugin name plugins) as [f|]; auto.
  destruct H as (l1 & p & l2 & E & Ha & _). exfalso. eapply Hp; eauto. rewrite E.
  apply in_app_iff. right. now left.
Qed.
Lemma misplaced_outcome plugins name l : misplaced l ->
  call_outcome plugins name l = Some PE_PositionalArgAfterNamedArg.
Proof. intros H. unfold call_outcome. now rewrite collect_misplaced. Qed.
Lemma ordered_or_misplaced l : misplaced l \/ exists pos named, l = pargs pos named.
Proof.
  induction l as [|[[n|] a] l IH].
  - right. exists [], []. reflexivity.
  - destruct IH as [(l1 & m & x & l2 & b & l3 & ->)|(pos & named & ->)].
    + left. exists ((Some n, a) :: l1), m, x, l2, b, l3. reflexivity.
    + destruct pos as [|p pos].
      * right. exists [], ((n, a) :: named). reflexivity.
      * left. exists [], n, a, [], p. eexists. reflexivity.
  - destruct IH as [(l1 & m & x & l2 & b & l3 & ->)|(pos & named & ->)].
    + left. exists ((None, a) :: l1), m, x, l2, b, l3. reflexivity.
    + right. exists (a :: pos), named. reflexivity.
Qed.
(** A plugin's own rejection is passed on. *)
Lemma plugin_rejects_outcome plugins name pos named p e :
  ~ In name builtin_names -> first_plugin plugins name p -> pp_parse p (RawFn name pos named) = inl e ->
  call_outcome plugins name (pargs pos named) = Some e.
Proof.
  intros Hb Hp He. unfold call_outcome. rewrite collect_pargs. unfold resolve. cbn [rf_name].
  rewrite builtin_names_eq in Hb. apply find_builtin_none in Hb. rewrite Hb.
  pose proof (find_plugin_spec name plugins) as H. destruct (find_plugin name plugins) as [f|].
  - rewrite (first_plugin_unique _ _ _ _ H Hp), He. reflexivity.
  - exfalso. destruct Hp as (l1 & q & l2 & E & Ha & _). rewrite Forall_forall in H.
    apply (H (q, p)); auto. rewrite E. apply in_app_iff. right. now left.
Qed.

(** The converse of [parse_template]. *)
Lemma html_loop_text_inv ext plugins file l r t : template_text ext l r t ->
  forall toks fuel pos pre, html_loop fuel ext plugins file pos (state_at pre t) = Ok toks ->
  template_tokens plugins l r (inner toks).
Proof.
  intros Ht. induction Ht as [r|s g w1 b w2 l r t Hs H1 H2 Hb Ht IH]; intros toks fuel pos pre H.
  - destruct fuel as [|fuel]; [discriminate|].
    destruct (html_loop_text ext plugins file [] r (escape r) (tt_end ext r) (raw_part r) (S fuel) pos pre)
      as (toks' & E & Ei); [constructor|cbn; lia|].
    rewrite E in H. injection H as <-.
    rewrite Ei. constructor.
  - destruct fuel as [|fuel]; [discriminate|]. cbn [html_loop] in H.
    change [c_lbrace; c_lbrace] with open_tag in H.
    rewrite extract_until_escape_tag in H by auto.
    assert (Hden : exists k, denotes plugins g k).
    { destruct Hb as [v Hv Hf|name w pos' named at' Hn Hf Hw Hok Hat].
      - exists (TVar v). constructor.
      - destruct (call_outcome plugins name (pargs pos' named)) as [e|] eqn:Eo.
        + exfalso.
          destruct (parse_tag_err ext plugins file (pre ++ escape s ++ open_tag) w1 name (pargs pos' named) _
            (w2 ++ close_tag ++ t) e H1 (ct_call ext name w (pargs pos' named) at' Hn Hf Hw Hok Hat) Eo) as (x & Ex & _).
          rewrite Ex in H. discriminate.
        + unfold call_outcome in Eo. rewrite collect_pargs in Eo.
          destruct (resolve_total plugins (RawFn name pos' named)) as [[f Ef]|[e Ef]]; rewrite Ef in Eo.
          * exists (TFun f). apply resolve_denotes. eauto.
          * destruct e; discriminate. }
    destruct Hden as [k Hd].
    destruct (parse_tag_text ext plugins file (pre ++ escape s ++ open_tag) w1 g b w2 t k H1 H2 Hb Hd)
      as [loc E]. rewrite E in H. cbn [bind] in H.
    match type of H with context [html_loop fuel ext plugins file ?p ?q] =>
      destruct (html_loop fuel ext plugins file p q) as [rest| | |] eqn:Er end; try discriminate.
    cbn [bind] in H. injection H as <-. apply IH in Er.
    unfold inner in *. rewrite map_app. cbn [map t_inner].
    fold (inner (raw_token file pos s)). rewrite inner_raw. now constructor.
Qed.
Theorem parse_template_iff ext plugins file l r t ks : template_text ext l r t ->
  (exists toks, parse_html ext plugins file t = Ok toks /\ inner toks = ks) <->
  template_tokens plugins l r ks.
Proof.
  intros Ht. split.
  - intros (toks & H & <-). unfold parse_html in H. rewrite state_at_new in H.
    eapply html_loop_text_inv; eauto.
  - intros H. eapply parse_template; eauto.
Qed.

(** Raw text alone. *)
Lemma parse_escaped ext plugins file t :
  parse_html ext plugins file (escape t) =
  Ok (match t with [] => [] | _ => [LTok (TRaw t) (Loc file 1 1)] end).
Proof.
  unfold parse_html. rewrite state_at_new. cbn [html_loop].
  destruct (extract_until_escape_end [] t) as [E1 E2].
  change [c_lbrace; c_lbrace] with open_tag.
  destruct (extract_until open_tag true (state_at [] (escape t))) as [o p1].
  cbn [fst snd] in E1, E2. subst o. rewrite (extract_remaining_escape p1 t E2).
  destruct t; reflexivity.
Qed.
Lemma parse_plain ext plugins file t : (forall a b, t <> a ++ open_tag ++ b) ->
  parse_html ext plugins file t =
  Ok (match t with [] => [] | _ => [LTok (TRaw t) (Loc file 1 1)] end).
Proof. intros H. rewrite <- (escape_plain t H) at 1. apply parse_escaped. Qed.

Lemma builtin_denotes plugins name pos named k : In name builtin_names ->
  denotes plugins (GCall name pos named) k <-> exists f, k = TFun f /\ builtin_call name pos named f.
Proof.
  intros H. split.
  - intros Hd. inversion Hd; subst; [eauto|contradiction].
  - intros (f & -> & Hf). now constructor.
Qed.
Definition builtin_tag (g : tag) : Prop :=
  match g with GVar _ => True | GCall name _ _ => In name builtin_names end.
Lemma builtin_tokens p1 p2 l r ks : Forall (fun sg => builtin_tag (snd sg)) l ->
  template_tokens p1 l r ks -> template_tokens p2 l r ks.
Proof.
  intros HF H. induction H as [|s g l r k ks Hd H IH]; [constructor|].
  inversion HF as [|? ? Hg HF']; subst. constructor; auto. cbn [snd] in Hg.
  destruct g as [v|name pos named]; [inversion Hd; constructor|].
  apply (builtin_denotes p2); auto. apply (builtin_denotes p1) in Hd; auto.
Qed.
Lemma parse_builtins ext p1 p2 file l r t ks :
  template_text ext l r t -> Forall (fun sg => builtin_tag (snd sg)) l ->
  (exists toks, parse_html ext p1 file t = Ok toks /\ inner toks = ks) <->
  (exists toks, parse_html ext p2 file t = Ok toks /\ inner toks = ks).
Proof.
  intros Ht Hl. rewrite !(parse_template_iff _ _ _ _ _ _ _ Ht). split; apply builtin_tokens; auto.
Qed.
Lemma parse_one_builtin ext plugins file s name pos named b w1 w2 r f :
  can_precede_tag s -> blank w1 -> blank w2 -> tag_body ext (GCall name pos named) b -> In name builtin_names ->
  (exists toks, parse_html ext plugins file (escape s ++ open_tag ++ w1 ++ b ++ w2 ++ close_tag ++ escape r) = Ok toks
    /\ inner toks = raw_part s ++ TFun f :: raw_part r) <->
  builtin_call name pos named f.
Proof.
  intros Hs H1 H2 Hb Hn.
  assert (HT : template_text ext [(s, GCall name pos named)] r
    (escape s ++ open_tag ++ w1 ++ b ++ w2 ++ close_tag ++ escape r)).
  { apply tt_tag; auto. apply tt_end. }
  rewrite (parse_template_iff ext plugins file _ _ _ _ HT). split.
  - intros H. remember [(s, GCall name pos named)] as l eqn:El.
    remember (raw_part s ++ TFun f :: raw_part r) as ks eqn:Ek. revert El Ek.
    destruct H as [r|s0 g l r k ks Hd H]; [discriminate|]. intros El Ek. injection El as -> -> ->.
    apply app_inv_head in Ek. injection Ek as -> _.
    apply builtin_denotes in Hd as (f' & E & Hf); auto. now injection E as <-.
  - intros H. constructor; [now constructor|constructor].
Qed.

Lemma parse_one_plugin ext plugins file s name pos named b w1 w2 r p :
  can_precede_tag s -> blank w1 -> blank w2 -> tag_body ext (GCall name pos named) b ->
  ~ In name builtin_names -> first_plugin plugins name p ->
  let t := escape s ++ open_tag ++ w1 ++ b ++ w2 ++ close_tag ++ escape r in
  match pp_parse p (RawFn name pos named) with
  | inr g => exists toks, parse_html ext plugins file t = Ok toks /\
               map t_inner toks = raw_part s ++ TFun (FPlugin g) :: raw_part r
  | inl e => fails_with e (parse_html ext plugins file t)
  end.
Proof.
  intros Hs H1 H2 Hb Hn Hp t. destruct (pp_parse p (RawFn name pos named)) as [e|g] eqn:E.
  - inversion Hb; subst.
    apply (parse_call_err ext plugins file [] [] [] s w1 name (pargs pos named)); auto; try constructor; auto.
    eapply plugin_rejects_outcome; eauto.
  - assert (HT : template_text ext [(s, GCall name pos named)] r t).
    { apply tt_tag; auto. apply tt_end. }
    apply (parse_template_iff ext plugins file _ _ _ _ HT).
    apply tk_tag; [|apply tk_end]. eapply de_plugin; eauto.
Qed.
Lemma parse_unknown ext plugins file l t ks s w1 name pos named c rest :
  tags_text ext l t -> Forall2 (fun sg k => denotes plugins (snd sg) k) l ks ->
  can_precede_tag s -> blank w1 -> call_text ext name (pargs pos named) c -> unknown plugins name ->
  fails_with (PE_NonexistentFunction name)
    (parse_html ext plugins file (t ++ escape s ++ open_tag ++ w1 ++ c ++ rest)).
Proof. intros. eapply parse_call_err; eauto. now apply unknown_outcome. Qed.

Lemma tags_then ext l t s g w1 b w2 r : tags_text ext l t ->
  can_precede_tag s -> blank w1 -> blank w2 -> tag_body ext g b ->
  template_text ext (l ++ [(s, g)]) r (t ++ escape s ++ open_tag ++ w1 ++ b ++ w2 ++ close_tag ++ escape r).
Proof.
  intros Ht. induction Ht; intros; cbn [app].
  - apply tt_tag; auto. apply tt_end.
  - rewrite <- !app_assoc. apply tt_tag; auto.
Qed.
Lemma tags_then_tokens plugins l ks : Forall2 (fun sg k => denotes plugins (snd sg) k) l ks ->
  forall s g k r, denotes plugins g k -> exists ts, template_tokens plugins (l ++ [(s, g)]) r ts.
Proof.
  induction 1 as [|[s0 g0] k0 l ks Hd H IH]; intros s g k r Hk; cbn [app].
  - eexists. apply tk_tag; eauto. apply tk_end.
  - destruct (IH s g k r Hk) as [ts Hts]. eexists. apply tk_tag; eauto.
Qed.
Lemma parse_call_order ext plugins file l t ks s w1 name args c :
  tags_text ext l t -> Forall2 (fun sg k => denotes plugins (snd sg) k) l ks ->
  can_precede_tag s -> blank w1 -> call_text ext name args c ->
  (misplaced args /\ forall rest, fails_with PE_PositionalArgAfterNamedArg
     (parse_html ext plugins file (t ++ escape s ++ open_tag ++ w1 ++ c ++ rest))) \/
  (~ misplaced args /\ exists pos named, args = pargs pos named /\
     forall w2 k rest, blank w2 -> denotes plugins (GCall name pos named) k ->
     exists toks, parse_html ext plugins file
         (t ++ escape s ++ open_tag ++ w1 ++ c ++ w2 ++ close_tag ++ escape rest) = Ok toks /\
       template_tokens plugins (l ++ [(s, GCall name pos named)]) rest (inner toks)).
Proof.
  intros Ht Hk Hs Hw Hc. destruct (ordered_or_misplaced args) as [Hm|(pos & named & ->)].
  - left. split; auto. intros rest. eapply parse_call_err; eauto. now apply misplaced_outcome.
  - right. split.
    + intros Hm. apply collect_misplaced in Hm. rewrite collect_pargs in Hm. discriminate.
    + exists pos, named. split; auto. intros w2 k rest H2 Hd.
      destruct (tags_then_tokens plugins l ks Hk s _ k rest Hd) as [ts Hts].
      destruct (parse_template ext plugins file (l ++ [(s, GCall name pos named)]) rest
        (t ++ escape s ++ open_tag ++ w1 ++ c ++ w2 ++ close_tag ++ escape rest) ts) as (toks & E & Ei); auto.
      * apply tags_then; auto. remember (pargs pos named) as a eqn:Ea.
        destruct Hc as [name w a t' Hn Hf Hw' Hok Hat]. subst a. now constructor.
      * exists toks. split; auto. now rewrite Ei.
Qed.

(** A decision procedure for the hypothesis of [parse_plain], for examples. *)
Fixpoint no_open (t : text) : bool :=
  match t with [] => true | _ :: t' => negb (starts_with open_tag t) && no_open t' end.
Lemma no_open_spec t : no_open t = true -> forall a b, t <> a ++ open_tag ++ b.
Proof.
  induction t as [|c t IH]; intros H a b E.
  - destruct a; discriminate.
  - cbn [no_open] in H. apply andb_true_iff in H as [H1 H2]. destruct a as [|x a].
    + cbn [app] in E. rewrite E in H1. apply negb_true_iff in H1.
      assert (H : starts_with open_tag (open_tag ++ b) = true) by (apply starts_with_spec; eauto).
      change (open_tag ++ b) with (c_lbrace :: c_lbrace :: b) in H. cbn [app open_tag] in H1. congruence.
    + injection E as _ E. exact (IH H2 _ _ E).
Qed.
