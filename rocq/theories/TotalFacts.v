(** TotalFacts.v -- pages: no panic, errors at tags (C31, C33). *)

From Coq Require Import String List NArith ZArith Bool Lia.
From Verif Require Import Text TextFacts Utf8 Json Base Syntax Parse Tree Interp Build SpecScope SpecPage ScopeFacts InterpFacts.
Import ListNotations.

Lemma run_total w b secs : plugins_of plugin_ok (w_toks w) -> plugins_of plugin_total (w_toks w) -> loops_ready (w_input w) (w_toks w) ->
  ~ In c_colon (fr_name b) ->
  match run w (Scope 0 [b] secs) with Ok s => sc_idx s = length (w_toks w) | Err e => blamed (w_toks w) e | _ => False end.
Proof.
  intros P T R N. assert (A := run_ok True w P (fun _ => T) (fun _ => R) b N (Scope 0 [b] secs) (based_self b) eq_refl).
  destruct (run w (Scope 0 [b] secs)); cbn in A; try tauto.
Qed.
Lemma run_blames w b secs e : plugins_of plugin_ok (w_toks w) -> ~ In c_colon (fr_name b) ->
  run w (Scope 0 [b] secs) = Err e -> blamed (w_toks w) e.
Proof.
  intros P N E.
  assert (A := run_ok False w P (fun F => match F with end) (fun F => match F with end) b N (Scope 0 [b] secs) (based_self b) eq_refl).
  now rewrite E in A.
Qed.

Section Page.
  Variable strict : Prop.
  Variable pr : processor.
  Variable i : node.
  Hypothesis Hi : pr_input pr = Some i.

  Lemma phase_total toks b secs : (strict -> loops_ready i toks) -> plugins_of plugin_ok toks -> (strict -> plugins_of plugin_total toks) -> ~ In c_colon (fr_name b) ->
    match phase pr toks [b] secs with
    | Ok s => exists top b', sc_stack s = top ++ [b'] /\ grown b b' /\ Forall colon_named top
    | Err e => blamed toks e | _ => ~ strict end.
  Proof.
    intros Hsite P T N. unfold phase. rewrite Hi.
    assert (A := run_ok strict (World (pr_host pr) i toks) P T Hsite b N (Scope 0 [b] secs) (based_self b) eq_refl).
    destruct (run _ _) as [s|e|p|]; cbn in A; try exact A. destruct A as [A _]. exact A.
  Qed.

  Lemma two_phases_total src toks root first b : (strict -> rendered i) -> plugins_of plugin_ok toks -> plugins_of plugin_ok root ->
    (strict -> plugins_of plugin_total toks) -> (strict -> plugins_of plugin_total root) ->
    ~ In c_colon (fr_name b) -> fr_name first = fr_name b ->
    match two_phases pr src toks root first b with
    | Ok _ => True
    | Err e => blamed toks e \/ blamed root e \/ e = TB src 0 0 XE_StackError
    | _ => ~ strict
    end.
  Proof.
    intros Hsite P1 P2 T1 T2 N F. unfold two_phases.
    assert (R : forall t, strict -> loops_ready i t) by (intros t Hs; now apply rendered_ready, Hsite).
    assert (A := phase_total toks first [] (R _) P1 T1 ltac:(now rewrite F)).
    destruct (phase pr toks [first] []) as [s|e|p|]; cbn [bind]; try (now auto).
    destruct A as (top & b' & E & G & C). rewrite E. destruct top as [|x top]; cbn [app].
    - destruct (is_base b'); [|now auto].
      assert (B := phase_total root b (sc_secs s) (R _) P2 T2 N). destruct (phase pr root [b] (sc_secs s)) as [s2|e|p|]; cbn [bind]; try (now auto).
      destruct B as (top & b2 & -> & _). now destruct top.
    - inversion C as [|? ? C1 C2]; subst. destruct (is_base x) eqn:B; [|now auto].
      unfold is_base in B. apply text_eqb_eq in B. unfold colon_named in C1. rewrite B in C1. exfalso.
      repeat (destruct C1 as [C1|C1]; [discriminate C1|]). exact C1.
  Qed.
End Page.

Lemma page_result (strict : Prop) pr i b e src p : pr_input pr = Some i -> pr_base pr = Some b -> ~ In c_colon (fr_name b) ->
  plugins_of plugin_ok (page_tokens e p) -> plugins_of plugin_ok (root_tokens e) ->
  (strict -> plugins_of plugin_total (page_tokens e p)) -> (strict -> plugins_of plugin_total (root_tokens e)) ->
  (strict -> rendered i) -> (strict -> page_ready p) ->
  match render_page pr e src p with
  | Ok _ => True
  | Err x => blamed (page_tokens e p) x \/ blamed (root_tokens e) x \/ exists k, page_error e p k /\ x = TB src 0 0 k
  | _ => ~ strict
  end.
Proof.
  intros Hi Hb N P1 P2 T1 T2 R Q. unfold root_tokens in *.
  destruct p as [toks|name m]; cbn [render_page page_tokens] in *.
  - unfold process_html. destruct (ev_root e) as [root|] eqn:Er; cbn [ok_or bind]; [|right; right; exists XE_MissingHtmlRoot; now split].
    rewrite Hb. assert (A := two_phases_total strict pr i Hi src toks root b b R P1 P2 T1 T2 N eq_refl).
    destruct (two_phases _ _ _ _ _ _) as [o|x|q|]; cbn [bind]; try exact A.
    destruct A as [A|[A| ->]]; [now left|now right; left|]. right. right. exists XE_StackError. now split.
  - unfold process_markdown. destruct (ev_root e) as [root|] eqn:Er; cbn [ok_or bind]; [|right; right; exists XE_MissingHtmlRoot; now split].
    destruct (ev_md e) as [mdt|] eqn:Em; cbn [ok_or bind]; [|right; right; exists XE_MissingMarkdownRoot; repeat split; [exact Em|now eexists _, _]].
    rewrite Hb. unfold md_to_value. destruct (md_html m) as [ht|] eqn:H; cbn [bind]; [|intros S; now apply (Q S)].
    match goal with |- context [two_phases pr src mdt root ?f b] =>
      assert (A := two_phases_total strict pr i Hi src mdt root f b R P1 P2 T1 T2 N eq_refl); destruct (two_phases pr src mdt root f b) as [o|x|q|] end;
      cbn [bind]; try exact A.
    + destruct (strip_suffix (lit ".md") name) eqn:S; [exact I|]. intros Hs. destruct (Q Hs) as [_ [stem ->]].
      assert (X := proj2 (strip_suffix_spec (lit ".md") (stem ++ lit ".md") stem) eq_refl). rewrite X in S. discriminate S.
    + destruct A as [A|[A| ->]]; [now left|now right; left|]. right. right. exists XE_StackError. now split.
Qed.
Lemma page_total pr i b e src p : pr_input pr = Some i -> pr_base pr = Some b -> ~ In c_colon (fr_name b) ->
  plugins_of plugin_ok (page_tokens e p) -> plugins_of plugin_ok (root_tokens e) ->
  plugins_of plugin_total (page_tokens e p) -> plugins_of plugin_total (root_tokens e) -> rendered i -> page_ready p ->
  match render_page pr e src p with Panic _ | OutOfFuel => False | _ => True end.
Proof.
  intros. assert (A := page_result True pr i b e src p). destruct (render_page pr e src p); try exact I; cbn in *; exfalso; apply A; auto.
Qed.
Lemma page_blames pr i b e src p x : pr_input pr = Some i -> pr_base pr = Some b -> ~ In c_colon (fr_name b) ->
  plugins_of plugin_ok (page_tokens e p) -> plugins_of plugin_ok (root_tokens e) ->
  render_page pr e src p = Err x ->
  blamed (page_tokens e p) x \/ blamed (root_tokens e) x \/ exists k, page_error e p k /\ x = TB src 0 0 k.
Proof.
  intros A1 A2 A3 A4 A5 E.
  assert (A := page_result False pr i b e src p A1 A2 A3 A4 A5 (fun F => match F with end) (fun F => match F with end) (fun F => match F with end) (fun F => match F with end)).
  now rewrite E in A.
Qed.
