(** ViewFacts.v -- what a run reads of the input tree: congruence of the interpreter, and the tree
    without the files that are never read (C72, C73). *)

From Coq Require Import String List NArith ZArith Bool Lia Permutation.
From Verif Require Import Text TextFacts Utf8 Json Base Syntax Parse Tree Interp Build SpecTemplate SpecScope SpecPage SpecTree SpecSite.
From Verif Require Import TreeFacts SiteFacts.
Import ListNotations.

(** ** Worlds that answer alike *)
Record views (w w' : world) : Prop := {
  vw_host : w_host w' = w_host w;
  vw_toks : w_toks w' = w_toks w;
  vw_for : forall t f st vs, In t (w_toks w) -> t_inner t = TFun (FFor f) -> for_values w f st = Ok vs ->
    exists vs', for_values w' f st = Ok vs' /\ select f vs' = select f vs;
  vw_import : forall t v file s s', In t (w_toks w) -> t_inner t = TFun (FImport v file) -> exec_import w v file s = Ok s' -> exec_import w' v file s = Ok s'
}.
Section Views.
  Variables w w' : world.
  Hypothesis V : views w w'.
  Definition follows (ex ex' : ltoken -> scope -> xres scope) : Prop :=
    forall t s s', In t (w_toks w) -> ex t s = Ok s' -> ex' t s = Ok s'.
  Lemma next_view s : next_token w' s = next_token w s.
  Proof. unfold next_token. now rewrite (vw_toks _ _ V). Qed.
  Lemma next_in s t s1 : next_token w s = Some (t, s1) -> In t (w_toks w).
  Proof. unfold next_token. destruct (nth_error _ _) eqn:E; [|discriminate]. intros H. injection H as <- _. now apply nth_error_In in E. Qed.
  Lemma block_view ex ex' h eof k : follows ex ex' -> forall s s', run_block ex w h eof k s = Ok s' -> run_block ex' w' h eof k s = Ok s'.
  Proof.
    intros F. induction k as [|k IH]; intros s s'; cbn [run_block]; destruct (Nat.leb _ _); auto. rewrite next_view. destruct (next_token w s) as [[t s1]|] eqn:N; auto.
    destruct (ex t s1) eqn:E; cbn [bind]; try discriminate. rewrite (F _ _ _ (next_in _ _ _ N) E). cbn [bind]. apply IH.
  Qed.
  Lemma cond_view ex ex' h eof k : follows ex ex' -> forall c s s', run_cond ex w h eof k c s = Ok s' -> run_cond ex' w' h eof k c s = Ok s'.
  Proof.
    intros F. induction k as [|k IH]; intros c s s'; cbn [run_cond]; destruct (Nat.leb _ _); auto. rewrite next_view. destruct (next_token w s) as [[t s1]|] eqn:N; auto.
    destruct (token_fn_name t) as [nm| | |]; cbn [bind]; try discriminate. destruct (c || _); [|apply IH].
    destruct (ex t s1) eqn:E; cbn [bind]; try discriminate. rewrite (F _ _ _ (next_in _ _ _ N) E). cbn [bind]. apply IH.
  Qed.
  Lemma for_view ex ex' name wp eof vs : follows ex ex' -> forall s s', for_loop ex w name wp eof vs s = Ok s' -> for_loop ex' w' name wp eof vs s = Ok s'.
  Proof.
    intros F. induction vs as [|v vs IH]; intros s s'; cbn [for_loop]; auto. rewrite (vw_toks _ _ V).
    destruct (run_block ex w _ _ _ _) eqn:E; cbn [bind]; try discriminate. rewrite (block_view _ _ _ _ _ F _ _ E). cbn [bind]. apply IH.
  Qed.
  Lemma current_view s k k' s' : (forall l, k l = Ok s' -> k' l = Ok s') -> with_current w s k = Ok s' -> with_current w' s k' = Ok s'.
  Proof. intros K. unfold with_current, current. rewrite (vw_toks _ _ V). destruct (sc_idx s); try discriminate. destruct (nth_error _ _); auto. Qed.
  Lemma fn_view ex ex' f t s s' : follows ex ex' -> In t (w_toks w) -> t_inner t = TFun f -> exec_fn ex w f s = Ok s' -> exec_fn ex' w' f s = Ok s'.
  Proof.
    intros F I T. unfold exec_fn. rewrite (vw_toks _ _ V), (vw_host _ _ V).
    destruct f as [a b|a b|a|a b|a b|ff|a|a b|a|a|c a b|p]; auto; try (apply current_view; now auto).
    - apply current_view. intros l. destruct (for_values w ff _) as [vs| | |] eqn:E; cbn [map_err bind]; try discriminate.
      destruct (vw_for _ _ V _ _ _ _ I T E) as (vs' & -> & Sel). cbn [map_err bind]. rewrite Sel. now apply for_view.
    - apply current_view. intros l. now apply cond_view.
    - apply current_view. intros l. destruct (exec_import w a b s) eqn:E; cbn [map_err]; try discriminate. now rewrite (vw_import _ _ V _ _ _ _ _ I T E).
    - apply current_view. intros l. destruct (ok_or _ _) as [x| | |]; cbn [bind]; try discriminate. destruct (ok_or _ _) as [y| | |]; cbn [bind]; try discriminate.
      now apply cond_view.
  Qed.
  Lemma exec_view n : follows (exec n w) (exec n w').
  Proof.
    induction n as [|n IH]; intros t s s' I; cbn [exec]; [discriminate|]. destruct (t_inner t) as [r|v|f] eqn:T; auto. now apply (fn_view _ _ _ t).
  Qed.
  Lemma run_view s s' : Interp.run w s = Ok s' -> Interp.run w' s = Ok s'.
  Proof.
    unfold Interp.run. rewrite (vw_toks _ _ V). generalize (S (length (w_toks w))) at 1 3. intros k. generalize (S (length (w_toks w))). intros n. revert s.
    induction k as [|k IH]; intros s; cbn [run_all]; [discriminate|]. rewrite next_view. destruct (next_token w s) as [[t s1]|] eqn:N; auto.
    destruct (exec n w t s1) eqn:E; cbn [bind]; try discriminate. rewrite (exec_view _ _ _ _ (next_in _ _ _ N) E). cbn [bind]. apply IH.
  Qed.
End Views.

(** Processors over input trees that answer alike for the tokens in [P]. *)
Definition pr_views (P : list ltoken -> Prop) (pr pr' : processor) : Prop :=
  pr_host pr' = pr_host pr /\ pr_base pr' = pr_base pr /\
  exists n n', pr_input pr = Some n /\ pr_input pr' = Some n' /\ forall toks, P toks -> views (World (pr_host pr) n toks) (World (pr_host pr) n' toks).
Lemma phase_view P pr pr' toks st secs s : pr_views P pr pr' -> P toks -> phase pr toks st secs = Ok s -> phase pr' toks st secs = Ok s.
Proof. intros (H & B & n & n' & N & N' & V) Pt. unfold phase. rewrite N, N', H. apply run_view. now apply V. Qed.
Lemma two_view P pr pr' src toks root first base o : pr_views P pr pr' -> P toks -> P root -> two_phases pr src toks root first base = Ok o -> two_phases pr' src toks root first base = Ok o.
Proof.
  intros V Pt Pr. unfold two_phases. destruct (phase pr toks _ _) eqn:E; cbn [bind]; try discriminate. rewrite (phase_view _ _ _ _ _ _ _ V Pt E). cbn [bind].
  destruct (sc_stack a) as [|f r]; auto. destruct (is_base f); auto. destruct (phase pr root _ _) eqn:E'; cbn [bind]; try discriminate. now rewrite (phase_view _ _ _ _ _ _ _ V Pr E').
Qed.
Definition env_in (P : list ltoken -> Prop) (e : env) : Prop := (forall t, ev_root e = Some t -> P t) /\ (forall t, ev_md e = Some t -> P t).
Lemma render_view P pr pr' e src p o : pr_views P pr pr' -> env_in P e -> (forall t, p = PageHtml t -> P t) -> render_page pr e src p = Ok o -> render_page pr' e src p = Ok o.
Proof.
  intros V [Er Em] Pt. destruct V as (H & B & V). pose proof (conj H (conj B V) : pr_views P pr pr') as V'. destruct p as [toks|name m]; cbn [render_page].
  - unfold process_html. rewrite B. destruct (ev_root e) as [root|]; cbn [ok_or bind]; auto. destruct (pr_base pr) as [b|]; auto.
    destruct (two_phases pr _ _ _ _ _) eqn:E; cbn [bind]; try discriminate. now rewrite (two_view _ _ _ _ _ _ _ _ _ V' (Pt _ eq_refl) (Er _ eq_refl) E).
  - unfold process_markdown. rewrite B. destruct (ev_root e) as [root|]; cbn [ok_or bind]; auto. destruct (ev_md e) as [mt|]; cbn [ok_or bind]; auto. destruct (pr_base pr) as [b|]; auto.
    destruct (md_to_value m) as [v| | |]; cbn [bind]; auto.
    destruct (two_phases pr _ _ _ _ _) eqn:E; cbn [bind]; try discriminate. now rewrite (two_view _ _ _ _ _ _ _ _ _ V' (Em _ eq_refl) (Er _ eq_refl) E).
Qed.
Lemma body_view P pr pr' src m m' : pr_views P pr pr' -> P (md_tokens m) -> preprocess_markdown pr src m = Ok m' -> preprocess_markdown pr' src m = Ok m'.
Proof.
  intros (H & B & V) Pt. pose proof (conj H (conj B V) : pr_views P pr pr') as V'. unfold preprocess_markdown. rewrite B, H. destruct (pr_base pr) as [b|]; auto.
  destruct (phase pr _ _ _) eqn:E; cbn [bind]; try discriminate. now rewrite (phase_view _ _ _ _ _ _ _ V' Pt E).
Qed.

(** ** The tree of what templates read *)
Definition keep (n : node) : bool := match n with NDir _ _ _ => true | NFile _ _ (PMarkdown _) _ _ => true | NFile _ _ (PJson _) _ _ => true | _ => false end.
Fixpoint prune (n : node) : node :=
  match n with
  | NDir name ch src => NDir name (flat_map (fun c => if keep c then [prune c] else []) ch) src
  | f => f
  end.
Definition prune_all (ch : list node) : list node := flat_map (fun c => if keep c then [prune c] else []) ch.
Lemma prune_name n : n_name (prune n) = n_name n.
Proof. now destruct n. Qed.
Lemma prune_parsed n : n_parsed (prune n) = n_parsed n.
Proof. now destruct n. Qed.
Lemma find_none c ch : ~ In c (map n_name ch) -> find_child c ch = None.
Proof.
  intros N. unfold find_child. destruct (find _ ch) eqn:E; auto. apply find_some in E as [I E]. apply text_eqb_eq in E. destruct N. rewrite <- E. now apply in_map.
Qed.
Lemma prune_in c ch : In c (prune_all ch) -> exists c', In c' ch /\ keep c' = true /\ c = prune c'.
Proof. unfold prune_all. intros I. apply in_flat_map in I as (c' & I & J). destruct (keep c') eqn:K; [|destruct J]. destruct J as [<-|[]]. now exists c'. Qed.
Lemma prune_names c ch : In c (map n_name (prune_all ch)) -> In c (map n_name ch).
Proof. intros I. apply in_map_iff in I as (x & <- & I). apply prune_in in I as (c' & I & _ & ->). rewrite prune_name. now apply in_map. Qed.
Lemma find_prune c ch : NoDup (map n_name ch) -> find_child c (prune_all ch) = match find_child c ch with Some m => if keep m then Some (prune m) else None | None => None end.
Proof.
  induction ch as [|x ch IH]; intros D; auto. cbn [map] in D. inversion D as [|? ? D1 D2]; subst. unfold find_child at 2. cbn [find prune_all flat_map]. fold (prune_all ch).
  destruct (text_eqb (n_name x) c) eqn:E.
  - destruct (keep x); cbn [app].
    + unfold find_child. cbn [find]. now rewrite prune_name, E.
    + apply text_eqb_eq in E. apply find_none. intros I. apply D1. rewrite E. now apply prune_names.
  - fold (find_child c ch). rewrite <- (IH D2). destruct (keep x); auto. cbn [app]. unfold find_child. cbn [find]. now rewrite prune_name, E.
Qed.
Lemma walk_prune p : forall n, distinct n -> keep n = true -> walk (prune n) p = match walk n p with Some m => if keep m then Some (prune m) else None | None => None end.
Proof.
  induction p as [|c p IH]; intros n D K; cbn [walk]; [now rewrite K|]. destruct n as [nm b pc meta src|nm ch src]; auto. cbn [prune n_children]. fold (prune_all ch).
  inversion D as [|? ? ? D1 D2]; subst. rewrite (find_prune c ch D1). destruct (find_child c ch) as [m|] eqn:F; auto. unfold find_child in F. apply find_some in F as [I _].
  rewrite Forall_forall in D2. destruct (keep m) eqn:Km; [now apply IH; auto|]. destruct m as [? ? [] ? ?|]; try discriminate Km; destruct p; auto.
Qed.
Lemma values_prune {E} ch : @md_values E (prune_all ch) = md_values ch.
Proof.
  induction ch as [|c ch IH]; cbn [prune_all flat_map md_values]; auto. fold (prune_all ch). destruct c as [nm b pc meta src|nm l src]; cbn [keep app].
  - destruct pc; cbn [app md_values n_parsed prune]; rewrite ?IH; auto.
  - cbn [md_values n_parsed prune]. auto.
Qed.
Lemma values_flat {E} ch : @md_values E (flat_map (fun c => if keep c then [prune c] else []) ch) = md_values ch.
Proof. exact (values_prune ch). Qed.
Lemma prune_view h n toks : distinct n -> is_dir n = true -> views (World h n toks) (World h (prune n) toks).
Proof.
  intros D Id. assert (K : keep n = true) by now destruct n. split; auto; cbn [w_toks]; intros t.
  - intros f st vs I T. unfold for_values, get_at_path. cbn [w_input]. destruct (ff_type f); [| |intros E; now exists vs];
      (destruct (components _) as [l|]; [|discriminate]); rewrite (walk_prune l n D K); destruct (walk n l) as [[nm b [] meta src|nm ch src]|]; try discriminate;
      cbn [keep prune]; rewrite ?values_flat; intros E; now exists vs.
  - intros v file s s' I T. unfold exec_import, get_at_path. cbn [w_input]. destruct (components _) as [l|]; auto. rewrite (walk_prune l n D K). destruct (walk n l) as [[nm b [] meta src|]|]; try discriminate. auto.
Qed.
Lemma view_prune h n toks : distinct n -> is_dir n = true -> views (World h (prune n) toks) (World h n toks).
Proof.
  intros D Id. assert (K : keep n = true) by now destruct n. split; auto; cbn [w_toks]; intros t.
  - intros f st vs I T. unfold for_values, get_at_path. cbn [w_input]. destruct (ff_type f); [| |intros E; now exists vs];
      (destruct (components _) as [l|]; [|discriminate]); rewrite (walk_prune l n D K); destruct (walk n l) as [[nm b [] meta src|nm ch src]|]; try discriminate;
      cbn [keep prune]; try discriminate; rewrite ?values_flat; intros E; now exists vs.
  - intros v file s s' I T. unfold exec_import, get_at_path. cbn [w_input]. destruct (components _) as [l|]; auto. rewrite (walk_prune l n D K).
    destruct (walk n l) as [[nm b [] meta src|]|]; try discriminate; cbn [keep prune]; try discriminate; auto.
Qed.
