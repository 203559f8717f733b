(** LayoutFacts.v -- builds of sources whose tags are written in different ways (C103). *)

From Coq Require Import String List NArith ZArith Bool Lia Permutation.
From Verif Require Import Text TextFacts Utf8 Json Base Lexer Syntax Parse Tree Interp Build Disk Js Shipped.
From Verif Require Import SpecTemplate SpecGrammar SpecUtf8 SpecScope SpecTree SpecSite SpecReads SpecAlike SpecLayout.
From Verif Require Import Utf8Facts TreeFacts BuildTotal ReadsFacts LocalFacts GrammarFacts ShapeFacts AlikeFacts.
Import ListNotations.

(** ** Tags *)
Lemma count_perm n l l' : Permutation l l' -> opt_count n l' = opt_count n l.
Proof.
  intros P. unfold opt_count. induction P as [|x l l' P IH|x y l|l l1 l2 P1 IH1 P2 IH2]; cbn [filter]; auto.
  - destruct (text_eqb _ _); cbn [length]; congruence.
  - destruct (text_eqb (fst x) n), (text_eqb (fst y) n); auto.
  - congruence.
Qed.
Lemma filter_perm {A} (f : A -> bool) l l' : Permutation l l' -> Permutation (filter f l) (filter f l').
Proof.
  intros P. induction P as [|x l l' P IH|x y l|l l1 l2 P1 IH1 P2 IH2]; cbn [filter]; auto.
  - destruct (f x); auto.
  - destruct (f x), (f y); auto. constructor.
  - now apply (Permutation_trans IH1).
Qed.
Lemma value_perm n l l' : Permutation l l' -> (opt_count n l <= 1)%nat -> opt_value n l' = opt_value n l.
Proof.
  intros P C. unfold opt_value, opt_count in *. apply (filter_perm (fun na => text_eqb (fst na) n)) in P. destruct (filter _ l) as [|x [|y r]]; cbn in C; try lia.
  - apply Permutation_nil in P. now rewrite P.
  - apply Permutation_length_1_inv in P. now rewrite P.
Qed.
Lemma last_perm n l l' : Permutation l l' -> (opt_count n l <= 1)%nat -> opt_last n l' = opt_last n l.
Proof.
  intros P C. unfold opt_last. apply value_perm.
  - apply (Permutation_trans (Permutation_sym (Permutation_rev l))). apply (Permutation_trans P). apply Permutation_rev.
  - rewrite (count_perm n l (rev l)); auto. apply Permutation_rev.
Qed.
Lemma tag_sym g g' : same_tag g g' -> same_tag g' g.
Proof. intros [x|pos named named' P C]; constructor; [now apply Permutation_sym|]. now rewrite (count_perm _ _ _ P). Qed.
Lemma denotes_same tbl g g' k : same_tag g g' -> denotes tbl g k -> denotes tbl g' k.
Proof.
  intros [x|pos named named' P C] D; auto. inversion D as [|? ? ? f B|? ? ? p f N]; subst.
  - apply de_builtin. inversion B as [| | | | | | | | | | | | | | | | |v b s ty nm F O C1 C2 C3]; subst.
    rewrite <- (value_perm (lit "skip") _ _ P C1), <- (value_perm (lit "limit") _ _ P C2), <- (value_perm (lit "sortby") _ _ P C3), <- (last_perm (lit "order") _ _ P C).
    apply bc_for; auto; [now apply (Permutation_Forall P)|now rewrite (count_perm _ _ _ P)..].
  - exfalso. apply N. vm_compute. tauto.
Qed.
Lemma tokens_same tbl l l' r ks : Forall2 (fun a a' => fst a' = fst a /\ same_tag (snd a) (snd a')) l l' -> template_tokens tbl l r ks -> template_tokens tbl l' r ks.
Proof.
  intros H. revert ks. induction H as [|[s g] [s' g'] l l' [S G] H IH]; intros ks T; auto. cbn [fst snd] in *. subst s'. inversion T; subst. constructor; auto. now apply (denotes_same _ g).
Qed.
Lemma template_sym ext t t' : same_template ext t t' -> same_template ext t' t.
Proof.
  intros (l & l' & r & L & L' & H). exists l', l, r. repeat split; auto. clear L L'. induction H as [|a a' l l' [S G] H IH]; constructor; auto. split; auto. now apply tag_sym.
Qed.
(** Templates written in different ways mean the same. *)
Lemma means_same ext tbl t t' ks : same_template ext t t' -> SpecGrammar.means ext tbl t ks -> SpecGrammar.means ext tbl t' ks.
Proof.
  intros (l & l' & r & L & L' & H) (l1 & r1 & L1 & T). destruct (one_shape _ _ _ _ L _ _ L1) as [-> ->]. exists l', r. split; auto. now apply (tokens_same _ l).
Qed.

(** ** Trees *)
Definition near (t t' : ltoken) : Prop := t_inner t' = t_inner t /\ l_path (t_loc t') = l_path (t_loc t).
Definition placid (t : ltoken) : Prop := forall p, t_inner t = TFun (FPlugin p) -> unplaced_fn p.
Inductive parsed_near : parsed -> parsed -> Prop :=
| pn_html t t' : Forall2 near t t' -> Forall placid t -> parsed_near (PHtml t) (PHtml t')
| pn_md m : Forall placid (md_tokens m) -> parsed_near (PMarkdown m) (PMarkdown m)
| pn_json v : parsed_near (PJson v) (PJson v)
| pn_custom c : unplaced_processor c -> parsed_near (PCustom c) (PCustom c)
| pn_none : parsed_near PNone PNone
| pn_ignored : parsed_near PIgnored PIgnored.
Inductive node_near : node -> node -> Prop :=
| nn_file name b b' pc pc' meta src : b' = b \/ (exists t, pc = PHtml t) -> parsed_near pc pc' -> node_near (NFile name b pc meta src) (NFile name b' pc' meta src)
| nn_dir name ch ch' src : Forall2 node_near ch ch' -> node_near (NDir name ch src) (NDir name ch' src).
Lemma near_name n n' : node_near n n' -> n_name n' = n_name n.
Proof. now intros []. Qed.
Lemma near_child c ch ch' : Forall2 node_near ch ch' -> like_opt node_near (find_child c ch) (find_child c ch').
Proof.
  intros H. unfold find_child. induction H as [|n n' ch ch' N H IH]; cbn [find]; [exact I|]. rewrite (near_name _ _ N). now destruct (text_eqb _ _).
Qed.
Lemma near_walk p : forall n n', node_near n n' -> like_opt node_near (walk n p) (walk n' p).
Proof.
  induction p as [|c p IH]; intros n n' N; cbn [walk]; auto. destruct N as [|name ch ch' src H]; cbn; auto.
  pose proof (near_child c _ _ H) as C. destruct (find_child c ch), (find_child c ch'); cbn in C; try contradiction; auto.
Qed.
Lemma near_at n n' p : node_near n n' -> like_opt node_near (get_at_path n p) (get_at_path n' p).
Proof. intros N. unfold get_at_path. destruct (components p); [now apply near_walk|exact I]. Qed.
Lemma near_values {E} ch ch' : Forall2 node_near ch ch' -> @md_values E ch' = md_values ch.
Proof.
  intros H. induction H as [|n n' ch ch' N H IH]; cbn [md_values]; auto. destruct N as [name b b' pc pc' meta src B C|]; cbn [n_parsed]; auto. destruct C; auto. now rewrite IH.
Qed.
Lemma near_for h n n' toks toks' f st : node_near n n' -> for_values (World h n' toks') f st = for_values (World h n toks) f st.
Proof.
  intros N. unfold for_values. cbn [w_input]. pose proof (near_at n n' (ff_src f) N) as A. destruct (ff_type f); auto.
  - destruct (get_at_path n _) as [x|], (get_at_path n' _) as [x'|]; cbn in A; try contradiction; auto. destruct A as [|? ? ? ? H]; auto. now apply near_values.
  - destruct (get_at_path n _) as [x|], (get_at_path n' _) as [x'|]; cbn in A; try contradiction; auto. destruct A as [? ? ? ? ? ? ? ? C|]; auto. now destruct C.
Qed.
Lemma near_import h n n' toks toks' v file s : node_near n n' -> exec_import (World h n' toks') v file s = exec_import (World h n toks) v file s.
Proof.
  intros N. unfold exec_import. cbn [w_input]. pose proof (near_at n n' file N) as A.
  destruct (get_at_path n _) as [x|], (get_at_path n' _) as [x'|]; cbn in A; try contradiction; auto. destruct A as [? ? ? ? ? ? ? ? C|]; auto. now destruct C.
Qed.
Lemma near_refl l : Forall2 near l l.
Proof. induction l; constructor; auto. now split. Qed.
Lemma near_inner l l' : Forall2 near l l' -> same_inner l l'.
Proof. unfold same_inner. intros H. induction H as [|t t' l l' [T _] H IH]; cbn; congruence. Qed.

(** ** Running *)
Section Running.
  Variable h : host.
  Variables n n' : node.
  Variables toks toks' : list ltoken.
  Notation w := (World h n toks).
  Notation w' := (World h n' toks').
  Hypothesis Hi : node_near n n'.
  Hypothesis Ht : Forall2 near toks toks'.
  Hypothesis Hg : Forall placid toks.
  Notation sim := (both (@same_fault process_error) (@eq scope)).
  Lemma near_length : length toks' = length toks.
  Proof. generalize Ht. generalize toks toks'. intros l l' H. induction H; cbn; auto. Qed.
  Lemma near_nth i : like_opt (fun t t' => near t t' /\ placid t) (nth_error toks i) (nth_error toks' i).
  Proof.
    generalize Ht Hg. generalize toks toks'. intros l l' H. revert i. induction H as [|t t' l l' T H IH]; intros [|i] G; cbn [nth_error]; try exact I; inversion G; subst; [now split|now apply IH].
  Qed.
  Lemma near_next s : like_opt (fun x x' => near (fst x) (fst x') /\ placid (fst x) /\ snd x' = snd x) (next_token w s) (next_token w' s).
  Proof.
    unfold next_token. cbn [w_toks]. pose proof (near_nth (sc_idx s)) as N. destruct (nth_error toks _), (nth_error toks' _); cbn in *; auto. destruct N. auto.
  Qed.
  Lemma near_current s k k' : (forall l l', l_path l' = l_path l -> sim (k l) (k' l')) -> sim (with_current w s k) (with_current w' s k').
  Proof.
    intros K. unfold with_current, current. cbn [w_toks]. destruct (sc_idx s) as [|i]; [reflexivity|]. pose proof (near_nth i) as N.
    destruct (nth_error toks i), (nth_error toks' i); cbn in N; try contradiction; [|reflexivity]. apply K. apply N.
  Qed.
  Lemma near_located l l' (r : res process_error scope) : l_path l' = l_path l -> sim (map_err (tb l) r) (map_err (tb l') r).
  Proof. intros P. destruct r; cbn; auto. now split. Qed.
  Definition agrees (ex ex' : ltoken -> scope -> xres scope) : Prop := forall t t' s, near t t' -> placid t -> sim (ex t s) (ex' t' s).
  Lemma near_fn_name t t' : near t t' -> token_fn_name t' = token_fn_name t.
  Proof. intros [N _]. unfold token_fn_name. now rewrite N. Qed.
  Lemma near_block ex ex' ht eof eof' k : agrees ex ex' -> same_fault eof eof' -> forall s, sim (run_block ex w ht eof k s) (run_block ex' w' ht eof' k s).
  Proof.
    intros X F. induction k as [|k IH]; intros s; cbn [run_block]; destruct (Nat.leb _ _); try reflexivity. pose proof (near_next s) as N.
    destruct (next_token w s) as [[t s1]|], (next_token w' s) as [[t' s1']|]; cbn in N; try contradiction; [|exact F]. destruct N as (T & G & ->).
    apply (both_bind _ eq); [now apply X|]. intros x x' ->. apply IH.
  Qed.
  Lemma near_cond ex ex' ht eof eof' k : agrees ex ex' -> same_fault eof eof' -> forall c s, sim (run_cond ex w ht eof k c s) (run_cond ex' w' ht eof' k c s).
  Proof.
    intros X F. induction k as [|k IH]; intros c s; cbn [run_cond]; destruct (Nat.leb _ _); try reflexivity. pose proof (near_next s) as N.
    destruct (next_token w s) as [[t s1]|], (next_token w' s) as [[t' s1']|]; cbn in N; try contradiction; [|exact F]. destruct N as (T & G & ->).
    rewrite (near_fn_name _ _ T). destruct (token_fn_name t) as [nm|e|p|] eqn:En; cbn [bind]; try reflexivity.
    - destruct (c || _); [|apply IH]. apply (both_bind _ eq); [now apply X|]. intros x x' ->. apply IH.
    - cbn. now split.
  Qed.
  Lemma near_loop ex ex' name wp eof eof' vs : agrees ex ex' -> same_fault eof eof' -> forall s, sim (for_loop ex w name wp eof vs s) (for_loop ex' w' name wp eof' vs s).
  Proof.
    intros X F. induction vs as [|v vs IH]; intros s; cbn [for_loop]; [reflexivity|]. cbn [w_toks]. rewrite near_length.
    apply (both_bind _ eq); [now apply near_block|]. intros x x' ->. apply IH.
  Qed.
  Lemma near_fn ex ex' t f s : agrees ex ex' -> placid t -> t_inner t = TFun f -> sim (exec_fn ex w f s) (exec_fn ex' w' f s).
  Proof.
    intros X G T. unfold exec_fn. cbn [w_toks w_host]. rewrite near_length.
    destruct f as [label custom|v fmt| |label custom|v k|ff|v|v file|label|v|c a b|p]; try (apply near_current; intros l l' P); try (now apply near_located).
    - reflexivity.
    - rewrite (near_for h n n' toks toks' ff (sc_stack s) Hi). destruct (for_values _ ff _); cbn [map_err bind]; try reflexivity; [|now split]. apply near_loop; auto. now split.
    - apply near_cond; auto. now split.
    - rewrite (near_import h n n' toks toks' v file s Hi). now apply near_located.
    - destruct (eval_input a _); cbn [ok_or bind]; [|now split]. destruct (eval_input b _); cbn [ok_or bind]; [|now split]. apply near_cond; auto. now split.
    - now apply (G p T).
  Qed.
  Lemma near_exec k : agrees (exec k w) (exec k w').
  Proof.
    induction k as [|k IH]; intros t t' s [N P] G; cbn [exec]; [exact I|]. rewrite N. destruct (t_inner t) as [r|f|v] eqn:E.
    - unfold emit. destruct (sc_stack s); reflexivity.
    - now apply (near_fn _ _ t).
    - destruct (var_string v _); try reflexivity; [unfold emit; destruct (sc_stack s); reflexivity|]. now split.
  Qed.
  Lemma near_run s : sim (Interp.run w s) (Interp.run w' s).
  Proof.
    unfold Interp.run. cbn [w_toks]. rewrite near_length. generalize (S (length toks)) at 1 3. intros k. generalize (S (length toks)). intros m. revert s.
    induction k as [|k IH]; intros s; cbn [run_all]; [exact I|]. pose proof (near_next s) as N.
    destruct (next_token w s) as [[t s1]|], (next_token w' s) as [[t' s1']|]; cbn in N; try contradiction; [|reflexivity]. destruct N as (T & G & ->).
    apply (both_bind _ eq); [now apply near_exec|]. intros x x' ->. apply IH.
  Qed.
End Running.

(** ** Building *)
Notation sims := (both same_failure).
Lemma sims_tb {B} (RB : B -> B -> Prop) r r' : both (@same_fault process_error) RB r r' -> sims RB (map_err E_Process r) (map_err E_Process r').
Proof. intros H. apply (both_map same_fault _ _ _ _ _ _ H). intros e e' E. now constructor. Qed.
Lemma fault_refl {K} (e : traceback K) : same_fault e e.
Proof. now split. Qed.
Definition pr_near (pr pr' : processor) : Prop :=
  pr_host pr' = pr_host pr /\ pr_meta pr' = pr_meta pr /\ pr_base pr' = pr_base pr /\ like_opt node_near (pr_input pr) (pr_input pr').
Lemma near_phase pr pr' toks toks' st secs : pr_near pr pr' -> Forall2 near toks toks' -> Forall placid toks ->
  both same_fault eq (phase pr toks st secs) (phase pr' toks' st secs).
Proof.
  intros (H & _ & _ & N) T G. unfold phase. rewrite H. destruct (pr_input pr) as [n|], (pr_input pr') as [n'|]; cbn in N; try contradiction; [|reflexivity]. now apply near_run.
Qed.
Lemma near_phases pr pr' src toks toks' root root' f b : pr_near pr pr' -> Forall2 near toks toks' -> Forall placid toks -> Forall2 near root root' -> Forall placid root ->
  both same_fault eq (two_phases pr src toks root f b) (two_phases pr' src toks' root' f b).
Proof.
  intros P T G T2 G2. unfold two_phases. apply (both_bind _ eq); [now apply near_phase|]. intros s s' <-. destruct (sc_stack s) as [|x st]; [now split|].
  destruct (is_base x); [|now split]. apply (both_bind _ eq); [now apply near_phase|]. intros s2 s2' <-. destruct (sc_stack s2); [now split|reflexivity].
Qed.
Definition env_near (e e' : env) : Prop :=
  ev_vars e' = ev_vars e /\ like_opt (Forall2 near) (ev_root e) (ev_root e') /\ like_opt (Forall2 near) (ev_md e) (ev_md e') /\
  (forall t, ev_root e = Some t -> Forall placid t) /\ (forall t, ev_md e = Some t -> Forall placid t).
Lemma near_html pr pr' e e' src toks toks' : pr_near pr pr' -> env_near e e' -> Forall2 near toks toks' -> Forall placid toks ->
  both same_fault (fun o o' => o' = o /\ po_contents o <> None) (process_html pr e src toks) (process_html pr' e' src toks').
Proof.
  intros P (_ & Er & _ & Gr & _) T G. unfold process_html. destruct (ev_root e) as [root|], (ev_root e') as [root'|]; cbn in Er; try contradiction; cbn [ok_or bind]; [|now split].
  pose proof P as (_ & _ & -> & _). destruct (pr_base pr) as [b|]; [|reflexivity]. apply (both_bind _ eq); [apply near_phases; auto|]. intros x x' <-. cbn. now split.
Qed.
Lemma near_md pr pr' e e' src name m : pr_near pr pr' -> env_near e e' -> both same_fault eq (process_markdown pr e src name m) (process_markdown pr' e' src name m).
Proof.
  intros P (_ & Er & Em & Gr & Gm). unfold process_markdown. destruct (ev_root e) as [root|], (ev_root e') as [root'|]; cbn in Er; try contradiction; cbn [ok_or bind]; [|now split].
  destruct (ev_md e) as [mt|], (ev_md e') as [mt'|]; cbn in Em; try contradiction; cbn [ok_or bind]; [|now split].
  pose proof P as (_ & _ & -> & _). destruct (pr_base pr) as [b|]; [|reflexivity]. apply (both_bind _ eq); [apply (both_weak eq same_fault eq eq _ _ (both_eq _)); [intros ? ? ->; apply fault_refl|auto]|]. intros v v' <-.
  apply (both_bind _ eq); [apply near_phases; auto|]. intros x x' <-. destruct (strip_suffix _ _); reflexivity.
Qed.
Lemma near_json pc pc' : parsed_near pc pc' -> parsed_to_json pc' = parsed_to_json pc.
Proof. now intros []. Qed.
Lemma near_opt l l' : like_opt (Forall2 near) l l' -> like_opt same_inner l l'.
Proof. destruct l, l'; cbn; auto. apply near_inner. Qed.
Lemma near_process pr pr' e e' name b b' pc pc' src : pr_near pr pr' -> env_near e e' -> b' = b \/ (exists t, pc = PHtml t) -> parsed_near pc pc' ->
  sims output_layout (process_file pr e name b pc src) (process_file pr' e' name b' pc' src).
Proof.
  intros P E B C. unfold process_file.
  apply (both_bind _ (fun o o' => o' = o /\ (b' = b \/ (is_template name /\ po_name o = None) \/ po_contents o <> None))).
  - assert (N : is_template_name name = true -> is_template name). { unfold is_template_name. intros T. apply orb_prop in T as [T|T]; apply text_eqb_eq in T; [now left|now right]. }
    destruct (is_template_name name); [cbn; split; [reflexivity|]; right; left; now split; [apply N|]|]. destruct C as [t t' T G|m G|v|c Q| |].
    + apply sims_tb. eapply both_weak; [apply near_html; eauto|auto|]. intros o o' [-> O]. auto.
    + destruct B as [->|(t & [=])]. apply sims_tb. eapply both_weak; [apply near_md; eauto|auto|]. intros o o' <-. auto.
    + destruct B as [->|(t & [=])]. cbn. auto.
    + destruct B as [->|(t & [=])]. destruct E as (V & Er & Em & _). rewrite (Q e e' V (near_opt _ _ Er) (near_opt _ _ Em)). destruct (np_process c e); cbn; auto. constructor.
    + destruct B as [->|(t & [=])]. cbn. auto.
    + destruct B as [->|(t & [=])]. cbn. auto.
  - intros o o' [-> D]. replace (pr_meta pr') with (pr_meta pr) by (symmetry; apply P). rewrite (near_json _ _ C). cbn.
    destruct (po_contents o) as [x|]; [constructor; now left|]. destruct D as [->|[[T ->]|[]]]; [constructor; now left|constructor; now right|reflexivity].
Qed.
Lemma near_update e e' ch ch' : env_near e e' -> Forall2 node_near ch ch' -> env_near (env_update e ch) (env_update e' ch').
Proof.
  intros E H. unfold env_update. revert e e' E. induction H as [|n n' ch ch' N H IH]; intros e e' E; cbn [fold_left]; auto. apply IH. clear IH H.
  destruct E as (V & Er & Em & Gr & Gm). unfold env_child. rewrite (near_name _ _ N).
  assert (T : like_opt (Forall2 near) (match n_parsed n with PHtml t => Some t | _ => None end) (match n_parsed n' with PHtml t => Some t | _ => None end) /\
    forall t, match n_parsed n with PHtml t => Some t | _ => None end = Some t -> Forall placid t).
  { destruct N as [name b b' pc pc' meta src B C|]; cbn [n_parsed]; [|split; [exact I|discriminate]]. destruct C; split; try exact I; try discriminate; auto. now intros x [= <-]. }
  destruct T as [T1 T2]. unfold env_near. destruct (text_eqb _ _); [|destruct (text_eqb _ _)]; cbn [ev_vars ev_root ev_md]; auto 6.
Qed.
Lemma near_build n : forall pr pr' e e' n', pr_near pr pr' -> env_near e e' -> node_near n n' -> sims output_layout (build_node pr e n) (build_node pr' e' n').
Proof.
  induction n as [name b pc meta src|name ch src IH] using node_ind2; intros pr pr' e e' n' P E N; inversion N as [? ? b' ? pc' ? ? B C|? ? ch' ? H]; subst; cbn [build_node].
  - now apply near_process.
  - apply (both_bind _ (Forall2 output_layout)).
    + apply (both_list _ node_near); auto. intros x x' I X. rewrite Forall_forall in IH. apply IH; auto. now apply near_update.
    + intros l l' L. cbn. now constructor.
Qed.
Lemma near_preprocess n : forall pr pr' n', pr_near pr pr' -> node_near n n' -> sims node_near (preprocess pr n) (preprocess pr' n').
Proof.
  induction n as [name b pc meta src|name ch src IH] using node_ind2; intros pr pr' n' P N; inversion N as [? ? b' ? pc' ? ? B C|? ? ch' ? H]; subst; cbn [preprocess].
  - destruct C as [t t' T G|m G|v|c Q| |]; try (cbn; constructor; auto; now constructor).
    apply (both_bind _ (fun m1 m1' => m1' = m1 /\ Forall placid (md_tokens m1))); [|intros m1 m1' [-> G1]; cbn; constructor; auto; [destruct B as [->|(t & [=])]; auto|now constructor]].
    apply sims_tb. unfold preprocess_markdown. pose proof P as (Ph & _ & Pb & _). rewrite Pb, Ph. destruct (pr_base pr) as [f|]; [|reflexivity].
    apply (both_bind _ eq); [apply near_phase; auto; apply near_refl|]. intros s s' <-. destruct (sc_stack s) as [|x st]; [now split|]. destruct (is_base x); [|now split].
    destruct (from_utf8 (fr_out x)); cbn; now split.
  - apply (both_bind _ (Forall2 node_near)).
    + apply (both_list _ node_near); auto. intros x x' I X. rewrite Forall_forall in IH. now apply IH.
    + intros l l' L. cbn. now constructor.
Qed.
Lemma near_tree h meta vars n n' : node_near n n' -> sims (fun x x' => output_layout (snd x) (snd x')) (build_tree h meta vars n) (build_tree h meta vars n').
Proof.
  intros N. unfold build_tree. apply (both_bind _ node_near); [apply near_preprocess; auto; repeat split; auto|]. intros i i' Hi. destruct Hi as [|name ch ch' src H]; cbn [n_children]; [reflexivity|].
  apply (both_bind _ output_layout); [|intros o o' O; exact O]. apply near_build; [repeat split; auto; cbn; now constructor| |now constructor].
  apply near_update; auto. repeat split; try exact I; discriminate.
Qed.

(** ** Loading *)
Lemma raw_paths file pos s : Forall (fun k => l_path (t_loc k) = file) (raw_token file pos s).
Proof. unfold raw_token. destruct s; constructor; [reflexivity|constructor]. Qed.
Lemma loop_paths ext tbl file fuel : forall pos p toks, html_loop fuel ext tbl file pos p = Ok toks -> Forall (fun k => l_path (t_loc k) = file) toks.
Proof.
  induction fuel as [|fuel IH]; intros pos p toks; cbn [html_loop]; [discriminate|]. destruct (extract_until _ _ p) as [[raw|] p1].
  - destruct (parse_tag ext tbl file p1) as [[k p2]| | |] eqn:T; cbn [bind]; try discriminate. destruct (html_loop fuel ext tbl file (location p2) p2) as [rest| | |] eqn:E; cbn [bind]; try discriminate.
    intros [= <-]. apply Forall_app. split; [apply raw_paths|]. constructor; [|now apply (IH _ _ _ E)]. unfold parse_tag in T. destruct (location _) as [line col].
    destruct (match p_peek _ with Some c => _ | None => _ end) as [[k0 q]| | |]; cbn [bind] in T; try discriminate. destruct (p_expect _ _ _); cbn [bind] in T; try discriminate. now injection T as <- _.
  - intros [= <-]. apply raw_paths.
Qed.
Lemma html_paths ext tbl file t toks : parse_html ext tbl file t = Ok toks -> Forall (fun k => l_path (t_loc k) = file) toks.
Proof. apply loop_paths. Qed.
Lemma nears file l l' : map t_inner l' = map t_inner l -> Forall (fun k => l_path (t_loc k) = file) l -> Forall (fun k => l_path (t_loc k) = file) l' -> Forall2 near l l'.
Proof.
  revert l'. induction l as [|t l IH]; intros [|t' l'] E P P'; try discriminate; constructor; cbn in E; injection E as E1 E2; inversion P; inversion P'; subst; auto. split; congruence.
Qed.
Lemma placid_tokens toks : plugins_of unplaced_fn toks -> Forall placid toks.
Proof. intros P. apply Forall_forall. intros [k l] Hi p E. cbn in E. subst k. now apply (P p l). Qed.
Section Loading.
  Variable h : host.
  Variable ps : list plugin.
  Hypothesis Un : unplaced ps.
  Lemma unplaced_give : plugins_give unplaced_fn ps.
  Proof. intros pl f raw g I J E. now apply (proj1 (Un pl I) f raw). Qed.
  Lemma unplaced_custom e np b p c : find_node_parser e ps = Some np -> npa_parse np b p = inr c -> unplaced_processor c.
  Proof. intros E P. unfold find_node_parser in E. apply find_some in E as [E _]. apply in_flat_map in E as (pl & I & J). now apply (proj2 (Un pl I) np b p). Qed.
  Lemma create_refl p name b n : create_from_file h ps true p name b = Ok n -> node_near n n.
  Proof.
    unfold create_from_file. intros E. match type of E with bind ?m _ = _ => destruct m as [pc| | |] eqn:Q end; cbn [bind] in E; try discriminate. injection E as <-. constructor; [now left|].
    destruct (extension name) as [e|]; [|injection Q as <-; constructor]. destruct (text_eqb e (lit "html")); [|destruct (text_eqb e (lit "md")); [|destruct (text_eqb e (lit "json"))]].
    - destruct (from_utf8 b) as [t|]; [|discriminate]. cbn [ok_or bind] in Q. destruct (parse_html _ _ p t) as [k| | |] eqn:E; cbn [map_err bind] in Q; try discriminate. injection Q as <-.
      constructor; [apply near_refl|]. apply placid_tokens. apply (parse_plugins _ _ _ _ _ _ unplaced_give E).
    - destruct (from_utf8 b) as [t|]; [|discriminate]. cbn [ok_or bind] in Q. destruct (parse_markdown _ _ p t) as [k| | |] eqn:E; cbn [map_err bind] in Q; try discriminate. injection Q as <-.
      constructor. apply placid_tokens. apply (markdown_plugins _ _ _ _ _ _ unplaced_give E).
    - destruct (from_utf8 b) as [t|]; [|discriminate]. cbn [ok_or bind] in Q. destruct (h_json h t); [|discriminate]. injection Q as <-. constructor.
    - destruct (find_node_parser e ps) as [np|] eqn:E; [|injection Q as <-; constructor]. destruct (npa_parse np b p) as [m|c] eqn:P; [discriminate|]. injection Q as <-. constructor. eapply unplaced_custom; eauto.
  Qed.
  Lemma create_near p name b b' : file_layout h name b b' ->
    (has_ext name (lit "html") -> forall t, utf8_text b t -> exists toks, SpecGrammar.means (h_ext h) (fns ps) t toks) ->
    sims node_near (create_from_file h ps true p name b) (create_from_file h ps true p name b').
  Proof.
    intros F K. destruct F as [b|b b' t t' X U U' S].
    - pose proof (create_refl p name b) as R. destruct (create_from_file _ _ _ _ _ _); cbn; auto. constructor.
    - destruct (K X t U) as (toks & M). pose proof (means_same _ _ _ _ _ S M) as M'. apply (parse_means _ _ p) in M as (k & E & Ek). apply (parse_means _ _ p) in M' as (k' & E' & Ek').
      apply extension_spec in X. apply decoding in U. apply decoding in U'. unfold create_from_file. rewrite X, U, U'. change (text_eqb (lit "html") (lit "html")) with true. cbv iota. cbn [ok_or bind].
      rewrite E, E'. cbn. constructor; [right; now exists k|]. constructor; [|apply placid_tokens; apply (parse_plugins _ _ _ _ _ _ unplaced_give E)].
      apply (nears p); [congruence|apply (html_paths _ _ _ _ _ E)|apply (html_paths _ _ _ _ _ E')].
  Qed.
  Definition known (name : text) (e : ent) : Prop := forall ks b t, ent_at e ks (EFile b) -> has_ext (last ks name) (lit "html") -> utf8_text b t ->
    exists toks, SpecGrammar.means (h_ext h) (fns ps) t toks.
  Lemma last_any {A} (a : A) l d d' : last (a :: l) d = last (a :: l) d'.
  Proof. revert a. induction l as [|b l IH]; intros a; [reflexivity|]. exact (IH b). Qed.
  Lemma known_child name l x : known name (EDir l) -> In x l -> known (fst x) (snd x).
  Proof.
    intros K I ks b t A X U. destruct x as [k e]. cbn [fst snd] in *. apply (K (k :: ks) b t); auto; [now apply (ea_child l k e)|]. destruct ks as [|a ks]; [exact X|]. change (has_ext (last (a :: ks) name) (lit "html")). now rewrite (last_any a ks name k).
  Qed.
  Lemma load_near e : forall e' p name, sources_layout h name e e' -> known name e -> sims node_near (create_from h ps true p name e) (create_from h ps true p name e').
  Proof.
    induction e as [b| |l IH] using ent_ind2; intros e' p name S K; inversion S as [? ? b' F|? ? l' F|]; subst; cbn [create_from].
    - apply create_near; auto. intros X t U. apply (K [] b t); auto. constructor.
    - constructor.
    - apply (both_bind _ (Forall2 node_near)); [|intros; cbn; now constructor]. eapply both_list; [exact F|]. intros x x' I [N Q]. rewrite N. rewrite Forall_forall in IH. apply IH; auto. now apply (known_child name l).
  Qed.
  Lemma loaded_known e : forall p name n, create_from h ps true p name e = Ok n -> known name e.
  Proof.
    induction e as [b| |l IH] using ent_ind2; intros p name n E ks c t A X U.
    - inversion A; subst. cbn [last] in X. cbn [create_from] in E. unfold create_from_file in E. apply extension_spec in X. apply decoding in U. rewrite X, U in E.
      change (text_eqb (lit "html") (lit "html")) with true in E. cbv iota in E. cbn [ok_or bind] in E. destruct (parse_html _ _ p t) as [k| | |] eqn:Q; cbn [map_err bind] in E; try discriminate.
      exists (map t_inner k). apply (parse_means _ _ p). now exists k.
    - inversion A.
    - cbn [create_from] in E. destruct (map_res _ l) as [ch| | |] eqn:Q; cbn [bind] in E; try discriminate. inversion A as [|? k e ? ? I A']; subst. apply map_res_ok in Q.
      destruct (TreeFacts.Forall2_in_l _ _ _ (k, e) Q I) as (m & _ & C). rewrite Forall_forall in IH. apply (IH (k, e) I _ _ _ C ks0 c t); auto.
      destruct ks0 as [|a ks0]; [exact X|]. change (has_ext (last (a :: ks0) name) (lit "html")) in X. cbn [fst]. now rewrite (last_any a ks0 k name).
  Qed.
End Loading.
Lemma file_sym h name b b' : file_layout h name b b' -> file_layout h name b' b.
Proof. intros [x|x x' t t' X U U' S]; [constructor|]. eapply fy_html; eauto. now apply template_sym. Qed.
Lemma sources_sym h e : forall name e', sources_layout h name e e' -> sources_layout h name e' e.
Proof.
  induction e as [b| |l IH] using ent_ind2; intros name e' S; inversion S as [? ? b' F|? ? l' F|]; subst; constructor.
  - now apply file_sym.
  - clear S. induction F as [|x x' l l' [N Q] F IHl]; constructor; inversion IH; subst; auto. split; auto. rewrite N. auto.
Qed.

(** ** Whole builds *)
Lemma known_all h ps name l : all_known h ps (EDir l) -> known h ps name (EDir l).
Proof.
  intros K ks b t A X U. destruct (exists_last (l := ks)) as (ks1 & k & ->); [intros ->; inversion A|]. rewrite last_last in X. now apply (K ks1 k b t).
Qed.
Lemma layout_build h osenv mode p name e e' st : unplaced (st_plugins st) -> sources_layout h name e e' -> all_known h (st_plugins st) e ->
  let b := build h osenv mode (SourceDir p name (Some e)) st in let b' := build h osenv mode (SourceDir p name (Some e')) st in
  both same_failure eq (snd b) (snd b') /\ (snd b = Ok tt -> like_opt output_layout (st_output (fst b)) (st_output (fst b'))).
Proof.
  intros Un S K. cbv zeta. unfold build. cbn [sd_path sd_name sd_ent].
  assert (C : sims node_near (node_new h (st_plugins st) true p name (Some e)) (node_new h (st_plugins st) true p name (Some e'))).
  { unfold node_new. destruct e as [b|l|]; inversion S; subst; try constructor. apply load_near; auto. now apply known_all. }
  destruct (node_new _ _ _ _ _ (Some e)) as [n|x|q|], (node_new _ _ _ _ _ (Some e')) as [n'|x'|q'|]; cbn in C; try contradiction; subst; try (split; [exact C|discriminate]); try (split; [reflexivity|discriminate]).
  set (meta := cf_meta (st_config st)). set (vars := build_vars osenv mode).
  assert (P := near_preprocess n (Processor h (Some n) (Some (base_frame vars)) meta) (Processor h (Some n') (Some (base_frame vars)) meta) n' ltac:(repeat split; auto) C).
  destruct (preprocess _ n) as [i|x|q|], (preprocess _ n') as [i'|x'|q'|]; cbn in P; try contradiction; subst; try (split; [exact P|discriminate]); try (split; [reflexivity|discriminate]).
  pose proof (near_tree h meta vars n n' C) as T. destruct (build_tree h meta vars n) as [[a o]|x|q|], (build_tree h meta vars n') as [[a' o']|x'|q'|]; cbn in T; try contradiction; subst; split; auto; try discriminate; reflexivity.
Qed.
Lemma built_known h osenv mode p name e st : snd (build h osenv mode (SourceDir p name (Some e)) st) = Ok tt -> all_known h (st_plugins st) e.
Proof.
  unfold build. cbn [sd_path sd_name sd_ent]. unfold node_new. destruct e as [b|l|]; try discriminate. destruct (create_from _ _ true p name _) as [n| | |] eqn:E; try discriminate. intros _ ks k b t A X U.
  apply (loaded_known h (st_plugins st) _ p name n E _ b t A); auto. now rewrite last_last.
Qed.
Lemma layout_half h osenv mode p name e e' st : unplaced (st_plugins st) -> sources_layout h name e e' ->
  snd (build h osenv mode (SourceDir p name (Some e)) st) = Ok tt -> snd (build h osenv mode (SourceDir p name (Some e')) st) = Ok tt.
Proof.
  intros Un S B. destruct (layout_build h osenv mode p name e e' st Un S (built_known _ _ _ _ _ _ _ B)) as [Q _]. rewrite B in Q. destruct (snd (build _ _ _ (SourceDir p name (Some e')) st)) as [[]| | |]; cbn in Q; try contradiction. reflexivity.
Qed.
Lemma layout_iff h osenv mode p name e e' st : unplaced (st_plugins st) -> sources_layout h name e e' ->
  (snd (build h osenv mode (SourceDir p name (Some e)) st) = Ok tt <-> snd (build h osenv mode (SourceDir p name (Some e')) st) = Ok tt).
Proof. intros Un S. split; apply layout_half; auto. now apply sources_sym. Qed.
Lemma layout_site h osenv mode p name e e' st out : unplaced (st_plugins st) -> sources_layout h name e e' ->
  snd (build h osenv mode (SourceDir p name (Some e)) st) = Ok tt -> st_output (fst (build h osenv mode (SourceDir p name (Some e)) st)) = Some out ->
  exists out', st_output (fst (build h osenv mode (SourceDir p name (Some e')) st)) = Some out' /\ output_layout out out'.
Proof.
  intros Un S B O. destruct (layout_build h osenv mode p name e e' st Un S (built_known _ _ _ _ _ _ _ B)) as [_ Q]. specialize (Q B). rewrite O in Q.
  destruct (st_output (fst (build _ _ _ (SourceDir p name (Some e')) st))) as [out'|]; cbn in Q; [|contradiction]. now exists out'.
Qed.

(** ** What is written to disk *)
Lemma output_name o o' : output_layout o o' -> n_name o' = n_name o.
Proof. now intros []. Qed.
Lemma recur_layout cf o : forall p o', output_layout o o' -> save_recur cf p o' = save_recur cf p o.
Proof.
  induction o as [name b pc meta src|name ch src IH] using node_ind2; intros p o' L; inversion L as [? ? b' ? ? ? B|? ? ch' ? H]; subst; cbn [save_recur].
  - destruct B as [->|[->| ->]]; reflexivity.
  - f_equal. clear L. induction H as [|x x' ch ch' X H IHl]; cbn [flat_map]; auto. inversion IH; subst. now rewrite (H2 _ _ X), IHl.
Qed.
Lemma meta_layout o : forall top o', output_layout o o' -> metadata_recur top o' = metadata_recur top o.
Proof.
  induction o as [name b pc meta src|name ch src IH] using node_ind2; intros top o' L; inversion L as [? ? b' ? ? ? B|? ? ch' ? H]; subst; cbn [metadata_recur]; [reflexivity|].
  assert (Q : map_res (metadata_recur false) ch' = map_res (metadata_recur false) ch).
  { clear L. induction H as [|x x' ch ch' X H IHl]; cbn [map_res]; auto. inversion IH; subst. fold (map_res (E := error) (metadata_recur false)). rewrite (H2 _ _ X). now rewrite IHl. }
  now rewrite Q.
Qed.
Lemma kept_config h osenv mode d st : st_config (fst (build h osenv mode d st)) = st_config st.
Proof. unfold build. destruct (node_new _ _ _ _ _ _); auto. destruct (preprocess _ _); auto. destruct (build_tree _ _ _ _) as [[? ?]| | |]; auto. Qed.
Lemma layout_saved h osenv mode p name e e' st : unplaced (st_plugins st) -> sources_layout h name e e' ->
  snd (build h osenv mode (SourceDir p name (Some e)) st) = Ok tt ->
  let b := fst (build h osenv mode (SourceDir p name (Some e)) st) in let b' := fst (build h osenv mode (SourceDir p name (Some e')) st) in
  forall ser f q d, save f b' q d = save f b q d /\ save_metadata ser f b' q d = save_metadata ser f b q d.
Proof.
  intros Un S B. cbv zeta. intros ser f q d. unfold save, save_metadata, metadata_value. rewrite !kept_config.
  destruct (layout_build h osenv mode p name e e' st Un S (built_known _ _ _ _ _ _ _ B)) as [_ Q]. specialize (Q B).
  destruct (st_output (fst (build _ _ _ (SourceDir p name (Some e)) st))) as [o|], (st_output (fst (build _ _ _ (SourceDir p name (Some e')) st))) as [o'|]; cbn in Q; try contradiction; [|now split].
  rewrite (meta_layout _ true _ Q). split; [|reflexivity]. replace (save_ops (st_config st) q o') with (save_ops (st_config st) q o); [reflexivity|].
  destruct Q as [|nm ch ch' src H]; [reflexivity|]. cbn [save_ops]. do 3 f_equal. induction H as [|x x' ch ch' X H IHl]; cbn [flat_map]; auto. now rewrite (recur_layout _ _ _ _ X), IHl.
Qed.

(** ** Plugins *)
Lemma js_unplaced name code r f : pp_parse (Js.js_plugin_parser name code) r = inr f -> unplaced_fn f.
Proof.
  intros E l l' s P. injection E as <-. cbn [pf_exec]. unfold Js.js_exec. apply (both_bind _ eq).
  - assert (R : forall l : list rawarg, Forall2 eq l l) by (intros a; induction a; constructor; auto).
    assert (Q : both same_fault (Forall2 eq) (map_res (Js.js_arg l s) (rf_pos r)) (map_res (Js.js_arg l' s) (rf_pos r))).
    { apply (both_list same_fault eq); [apply R|]. intros x x' _ <-. destruct x as [n| | |]; cbn; try reflexivity; [|now split]. destruct (get_variable n _); cbn; [reflexivity|now split]. }
    apply (both_weak _ _ _ _ _ _ Q); auto. intros x x' H. induction H; congruence.
  - intros vs vs' <-. apply (both_bind _ eq).
    + destruct (Js.js_run _ s); cbn; auto. apply fault_refl.
    + intros [s2 o] _ <-. destruct o as [t|]; [|reflexivity]. cbn [fst snd]. destruct (output (enc t) s2); reflexivity.
Qed.
Lemma ours_unplaced o ps : (forall pl, In pl ps -> In pl [Shipped.imgopt o; Shipped.demo] \/
  (pl_parsers pl = [] /\ forall f, In f (pl_fns pl) -> exists name code, f = Js.js_plugin_parser name code)) -> unplaced ps.
Proof.
  intros H pl I. destruct (H pl I) as [[<-|[<-|[]]]|[N F]]; split; cbn.
  - intros f raw g [].
  - intros np b p c [<-|[]] E. cbn in E. injection E as <-. intros e e' _ _ _. reflexivity.
  - intros f raw g [<-|[]]. cbn. destruct (rf_pos raw), (rf_named raw); try discriminate. intros E l l' s P. injection E as <-. cbn [pf_exec Shipped.demo_fn].
    destruct (output _ s); reflexivity.
  - intros np b p c [].
  - intros f raw g J. destruct (F f J) as (name & code & ->). exact (js_unplaced name code raw g).
  - rewrite N. intros np b p c [].
Qed.
