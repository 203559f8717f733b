(** LoopFacts.v -- what a loop prints. *)

From Coq Require Import String List NArith ZArith Bool Lia.
From Verif Require Import Text TextFacts Utf8 Json Base Syntax Parse Tree Interp SpecScope SpecRender SpecLoop
  ScopeFacts RenderFacts SelectFacts BlockFacts.
Import ListNotations.

Lemma source_values h site toks f st vs : loop_source site f st vs -> for_values (World h site toks) f st = Ok vs.
Proof.
  intros H. unfold for_values. destruct H as [n ch src vs T G P|n b vs m src T G|k p v0 vs T S Hk Hp V F]; rewrite T; cbn [w_input].
  - rewrite G. now apply posts_values.
  - now rewrite G.
  - rewrite S. assert (E : get_variable (dotted k p) st = Some (VArr vs)) by (apply get_variable_iff; [exact Hk|exact Hp|now exists v0]).
    now rewrite E.
Qed.

Lemma each_rseq h site body name vs st o st' : each h site body name vs st o st' ->
  rseq (fun v => rscope [(name, v)] (rseq (render false h site) body)) vs st = RDone o st' /\ rs_scopes st' = rs_scopes st.
Proof.
  induction 1 as [st|v vs st o st1 o' st2 R E [IH S]]; [now split|].
  cbn [rseq rs_scopes] in *. split; [|exact S]. unfold rscope at 1. unfold render_all in R. rewrite R. cbn [rthen]. now rewrite IH.
Qed.

Lemma loop_prints h site l f body l' fr r secs vs out o st : Forall well_formed body ->
  loop_source site f (fr :: r) vs -> visits f vs out -> out <> [] ->
  each h site body (ff_var f) out (RState (map fr_vars (fr :: r)) secs) o st ->
  let toks := flat (IFor l f body l') in
  run (World h site toks) (Scope 0 (fr :: r) secs) =
  Ok (Scope (length toks) (Frame (fr_name fr) (fr_vars fr) (fr_out fr ++ o) :: r) (rs_secs st)).
Proof.
  intros WF Src V NE E toks. apply all_wf_forall in WF.
  assert (Ht := run_single h site (IFor l f body l') fr r secs WF).
  assert (out = select f vs) by (eapply visits_unique; [exact V|apply select_visits]). subst out.
  cbn zeta in Ht. cbn [render rs_scopes] in Ht. rewrite (for_values_vars h site [] f (fr :: r)), (source_values h site [] f (fr :: r) vs Src) in Ht.
  destruct (each_rseq _ _ _ _ _ _ _ _ E) as [E1 E2].
  destruct (select f vs) as [|v us]; [contradiction|]. rewrite E1 in Ht. destruct Ht as (new & S & R).
  rewrite S in E2. cbn in E2. injection E2 as E2.
  assert (new = []). { apply (f_equal (@length _)) in E2. rewrite app_length in E2. destruct new; [reflexivity|cbn in E2; lia]. }
  subst new. rewrite app_nil_r in R. exact R.
Qed.
Lemma loop_none n w l f s vs : current w s = Some (LTok (TFun (FFor f)) l) ->
  loop_source (w_input w) f (sc_stack s) vs -> visits f vs [] ->
  exec (S n) w (LTok (TFun (FFor f)) l) s = Ok s.
Proof.
  intros C Src V. destruct w as [h site toks]. apply (loop_nothing n _ l f s vs C); [now apply source_values|].
  symmetry. eapply visits_unique; [exact V|apply select_visits].
Qed.
