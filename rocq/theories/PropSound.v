(** PropSound.v -- properties C20, C22 and C23 again: whether a page that renders can be wrong. *)

From Coq Require Import String List NArith ZArith Bool.
From Verif Require Import Text Utf8 Json Base Syntax Parse Tree Interp SpecScope SpecRender SpecLoop SpecBlocks SpecSound
  RenderFacts BlockFacts LoopFacts SoundFacts.
Import ListNotations.

(** ** C20 *)
(** A page without a loop inside a loop that renders at all prints exactly what its blocks say:
    loops over nothing and blocks in branches that are not taken make pages fail, not lie. *)
Theorem C20_sound_partial : forall h site l f r secs s, Forall well_formed l -> forallb loops_apart l = true ->
  ~ In c_colon (fr_name f) ->
  run (World h site (flat_map flat l)) (Scope 0 (f :: r) secs) = Ok s ->
  exists o st new, render_all true h site l (RState (map fr_vars (f :: r)) secs) = RDone o st /\
    rs_scopes st = (fr_vars f ++ new) :: map fr_vars r /\
    s = Scope (length (flat_map flat l)) (Frame (fr_name f) (fr_vars f ++ new) (fr_out f ++ o) :: r) (rs_secs st).
Proof. exact sound. Qed.
Print Assumptions C20_sound_partial.
(** A loop with a conditional in it and a conditional with a loop in it; the page renders. *)
Definition C20_apart : list item :=
  let l := Loc [] 1 1 in
  let loop body := IFor l (ForFn (lit "x") (lit "xs") SrcVar None None None false) body l in
  [loop [IIf l (TCompare CEq (IVar (lit "x")) (IStr (lit "a"))) [ILeaf (raw (lit "A"))] l];
   IIf l (TDefined (lit "xs")) [loop [ILeaf (LTok (TVar (lit "x")) l)]] l].
Example C20_sound_case :
  let f := Frame (lit "base") [(lit "xs", VArr [VStr (lit "a"); VStr (lit "b")])] [] in
  Forall well_formed C20_apart /\ forallb loops_apart C20_apart = true /\ ~ In c_colon (fr_name f) /\
  run (World no_host (NDir [] [] []) (flat_map flat C20_apart)) (Scope 0 [f] []) =
    Ok (Scope (length (flat_map flat C20_apart)) [add_out (enc (lit "Aab")) f] []).
Proof.
  split; [repeat constructor|]. split; [reflexivity|]. split; [cbn; intuition discriminate|]. now vm_compute.
Qed.

(** ** C22 *)
(** With loops inside loops, a loop over nothing can give a page that renders and is wrong: the
    body of the inner loop is printed though there is nothing to loop over, and what follows the
    inner loop is left out. *)
Theorem C22_silent_refuted : exists h site l f o st s, Forall well_formed l /\
  render_all true h site l (RState [fr_vars f] []) = RDone o st /\
  run (World h site (flat_map flat l)) (Scope 0 [f] []) = Ok s /\
  o = enc (lit "<><body>") /\ map fr_out (sc_stack s) = [enc (lit "<body<body>")].
Proof.
  exact (ex_intro _ no_host (ex_intro _ (NDir [] [] []) (ex_intro _ C22_nested (ex_intro _ C22_nested_base (ex_intro _ _ (ex_intro _ _ (ex_intro _ _
    (conj (proj1 (all_wf_forall _) (proj1 empty_silent)) (conj (proj1 (proj2 empty_silent)) (conj (proj2 (proj2 empty_silent)) (conj eq_refl eq_refl))))))))))).
Qed.
Print Assumptions C22_silent_refuted.
(** Otherwise such a page never renders. *)
Theorem C22_fails_partial : forall h site a l f body l' b fr r secs o st vs s,
  Forall well_formed (a ++ IFor l f body l' :: b) -> forallb loops_apart (a ++ IFor l f body l' :: b) = true ->
  ~ In c_colon (fr_name fr) ->
  render_all false h site a (RState (map fr_vars (fr :: r)) secs) = RDone o st ->
  loop_source site f (frames (rs_scopes st)) vs -> visits f vs [] ->
  run (World h site (flat_map flat (a ++ IFor l f body l' :: b))) (Scope 0 (fr :: r) secs) <> Ok s.
Proof. exact empty_fails. Qed.
Print Assumptions C22_fails_partial.
Example C22_fails_case :
  let f := ForFn (lit "x") (lit "xs") SrcVar (Some 2%N) None None false in
  let l := [ILeaf (raw (lit "before")); IFor (Loc [] 1 1) f [ILeaf (raw (lit "body"))] (Loc [] 1 2); ILeaf (raw (lit "after"))] in
  Forall well_formed l /\ forallb loops_apart l = true /\
  loop_source (NDir [] [] []) f (frames [[(lit "xs", VArr [VNull; VNull])]]) [VNull; VNull] /\ visits f [VNull; VNull] [].
Proof.
  split; [repeat constructor|]. split; [reflexivity|]. split.
  - apply (ls_var _ _ _ (lit "xs") [] (VArr [VNull; VNull])); [reflexivity|reflexivity|intros [E|[E|[]]]; discriminate E|constructor| |constructor].
    exists [], (of_vars [(lit "xs", VArr [VNull; VNull])]), []. repeat split; [|constructor].
    exists [], []. split; [reflexivity|intros []].
  - exact (SelectFacts.select_visits (ForFn (lit "x") (lit "xs") SrcVar (Some 2%N) None None false) [VNull; VNull]).
Qed.

(** ** C23 *)
(** A conditional with a loop in it, inside a loop: text of the branch that is not taken is
    printed and what follows the conditional is left out; the page renders. *)
Theorem C23_silent_refuted : exists h site l f o st s, Forall well_formed l /\
  render_all true h site l (RState [fr_vars f] []) = RDone o st /\
  run (World h site (flat_map flat l)) (Scope 0 [f] []) = Ok s /\
  o = enc (lit "<><hiddenbodyhidden>") /\ map fr_out (sc_stack s) = [enc (lit "<hidden<hiddenbodyhidden>")].
Proof.
  exact (ex_intro _ no_host (ex_intro _ (NDir [] [] []) (ex_intro _ C23_nested (ex_intro _ C23_nested_base (ex_intro _ _ (ex_intro _ _ (ex_intro _ _
    (conj (proj1 (all_wf_forall _) (proj1 hidden_silent)) (conj (proj1 (proj2 hidden_silent)) (conj (proj2 (proj2 hidden_silent)) (conj eq_refl eq_refl))))))))))).
Qed.
Print Assumptions C23_silent_refuted.
(** Without a loop inside a loop, a page with a block in a branch that is not taken never renders. *)
Theorem C23_fails_partial : forall h site a i b fr r secs o st s,
  Forall well_formed (a ++ i :: b) -> forallb loops_apart (a ++ i :: b) = true -> ~ In c_colon (fr_name fr) ->
  render_all false h site a (RState (map fr_vars (fr :: r)) secs) = RDone o st ->
  (exists l c yes l', i = IIf l c yes l' /\ holds c (rs_scopes st) = Ok false /\ existsb is_block yes = true) \/
  (exists l c yes le no l', i = IIfElse l c yes le no l' /\ holds c (rs_scopes st) = Ok false /\ existsb is_block yes = true) \/
  (exists l c yes le no l', i = IIfElse l c yes le no l' /\ holds c (rs_scopes st) = Ok true /\ existsb is_block no = true) ->
  run (World h site (flat_map flat (a ++ i :: b))) (Scope 0 (fr :: r) secs) <> Ok s.
Proof. exact hidden_fails. Qed.
Print Assumptions C23_fails_partial.
Example C23_fails_case :
  let i := IIfElse (Loc [] 1 1) (TCompare CEq (IInt 1) (IInt 1)) [ILeaf (raw (lit "yes"))] (Loc [] 1 2)
             [ISection (Loc [] 1 3) (lit "s") true [] true (Loc [] 1 4)] (Loc [] 1 5) in
  well_formed i /\ loops_apart i = true /\ holds (TCompare CEq (IInt 1) (IInt 1)) [] = Ok true.
Proof. repeat split. Qed.
