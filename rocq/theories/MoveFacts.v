(** MoveFacts.v -- reading and building the same sources elsewhere, or in another environment
    (C85, C86). *)

From Coq Require Import String List NArith ZArith Bool Lia.
From Verif Require Import Text TextFacts Utf8 Json Base Lexer Syntax Parse Tree Interp Build Disk SpecScope SpecTree SpecSite SpecReads SpecBlame SpecAlike.
From Verif Require Import Js Shipped ScopeFacts TreeFacts BuildTotal GrammarFacts BlameFacts AlikeFacts.
Import ListNotations.

(** ** Parsing *)
Section Parsing.
  Variable R : path -> path -> Prop.
  Variables file file' : path.
  Hypothesis F : R file file'.
  Notation sim := (both (@like_tb R parse_error)).
  Lemma at_like p k : like_tb R (p_traceback file p k) (p_traceback file' p k).
  Proof. repeat split; auto. Qed.
  Lemma expect_like s0 s : forall p, sim eq (p_expect_aux file s0 s p) (p_expect_aux file' s0 s p).
  Proof.
    induction s as [|c s IH]; intros p; cbn [p_expect_aux]; [reflexivity|]. destruct (p_next p) as [[d p']|]; [|apply at_like]. destruct (_ =? _)%N; [apply IH|apply at_like].
  Qed.
  Lemma variable_like ext p : sim eq (parse_variable ext file p) (parse_variable ext file' p).
  Proof.
    unfold parse_variable. apply (both_bind _ eq); [apply expect_like|]. intros p1 p1' ->. destruct (extract_while _ p1') as [v p2]. destruct v; [apply at_like|reflexivity].
  Qed.
  Lemma lifted_like {B} p (r : res parse_error B) : sim eq (map_err (p_traceback file p) r) (map_err (p_traceback file' p) r).
  Proof. apply (both_map eq); [apply both_eq|]. intros e e' ->. apply at_like. Qed.
  Lemma arg_like ext p arg pos named : sim eq (add_arg ext file p arg pos named) (add_arg ext file' p arg pos named).
  Proof.
    unfold add_arg. destruct (_ && _).
    - destruct (splitn2 _ _) as [name [v|]]; [|apply at_like]. destruct (_ || _); [apply at_like|]. apply (both_bind _ eq); [apply lifted_like|]. intros a a' ->. reflexivity.
    - destruct arg; [reflexivity|]. destruct named; [|apply at_like]. apply (both_bind _ eq); [apply lifted_like|]. intros a a' ->. reflexivity.
  Qed.
  Lemma args_like ext fuel : forall p pos named, sim eq (parse_args fuel ext file p pos named) (parse_args fuel ext file' p pos named).
  Proof.
    induction fuel as [|fuel IH]; intros p pos named; cbn [parse_args]; [exact I|]. destruct (extract_while_st _ _ _) as [raw p2].
    apply (both_bind _ eq); [apply arg_like|]. intros [a b] [a' b'] E. injection E as -> ->. destruct (p_next p2) as [[c p3]|]; [|apply at_like].
    destruct (_ =? _)%N; [reflexivity|]. destruct (_ =? _)%N; [apply IH|reflexivity].
  Qed.
  Lemma function_like ext t p : sim eq (parse_function ext t file p) (parse_function ext t file' p).
  Proof.
    unfold parse_function. destruct (location p) as [line col]. destruct (extract_while _ p) as [name p1]. destruct name as [|c name]; [apply at_like|].
    apply (both_bind _ eq); [apply expect_like|]. intros p3 p3' ->. apply (both_bind _ eq); [apply args_like|]. intros [[a b] q] [[a' b'] q'] E. injection E as -> -> ->.
    apply (both_bind _ eq).
    - apply (both_map eq); [apply both_eq|]. intros e e' ->. destruct e'; [apply at_like|repeat split; auto].
    - intros f f' ->. reflexivity.
  Qed.
  Lemma tag_like ext t p : sim (fun x x' => like_token R (fst x) (fst x') /\ snd x = snd x') (parse_tag ext t file p) (parse_tag ext t file' p).
  Proof.
    unfold parse_tag. destruct (location _) as [line col]. apply (both_bind _ eq).
    - destruct (p_peek _); [|apply at_like]. destruct (_ =? _)%N; [apply variable_like|apply function_like].
    - intros [k q] [k' q'] E. injection E as -> ->. apply (both_bind _ eq); [apply expect_like|]. intros p3 p3' ->. cbn. repeat split; auto.
  Qed.
  Lemma raw_like pos s : like_tokens R (raw_token file pos s) (raw_token file' pos s).
  Proof. unfold raw_token. destruct s; constructor; [|constructor]. repeat split; auto. Qed.
  Lemma loop_parse_like ext t fuel : forall pos p, sim (like_tokens R) (html_loop fuel ext t file pos p) (html_loop fuel ext t file' pos p).
  Proof.
    induction fuel as [|fuel IH]; intros pos p; cbn [html_loop]; [exact I|]. destruct (extract_until _ _ p) as [[raw|] p1]; [|apply raw_like].
    apply (both_bind _ (fun x x' => like_token R (fst x) (fst x') /\ snd x = snd x')); [apply tag_like|]. intros [k q] [k' q'] [K Q]. cbn [fst snd] in *. subst q'.
    apply (both_bind _ (like_tokens R)); [apply IH|]. intros l l' L. cbn. apply Forall2_app; [apply raw_like|now constructor].
  Qed.
  Lemma parse_like ext t s : sim (like_tokens R) (parse_html ext t file s) (parse_html ext t file' s).
  Proof. apply loop_parse_like. Qed.
  Lemma parse_md_like ext t s : sim (fun m m' => exists fm k k' b, m = Markdown fm k b None /\ m' = Markdown fm k' b None /\ like_tokens R k k') (parse_markdown ext t file s) (parse_markdown ext t file' s).
  Proof.
    unfold parse_markdown. apply (both_bind _ eq).
    - destruct (_ || _); [|reflexivity]. destruct (front_loop _ _ _ _); [repeat split; auto|repeat split; auto|reflexivity].
    - intros [n fm] [n' fm'] E. injection E as -> ->. apply (both_bind _ (like_tokens R)); [apply parse_like|]. intros k k' K. cbn. eauto 8.
  Qed.
End Parsing.

(** ** Loading elsewhere *)
Lemma good_tokens R toks : plugins_of (steady_fn R None) toks -> Forall (good R None) toks.
Proof.
  intros P. apply Forall_forall. intros [k l] Hi. split; cbn [t_inner]; [intros v _ x p _ _; exact I|]. intros p ->. now apply (P p l).
Qed.
Lemma steady_give R A ps : steady R A ps -> plugins_give (steady_fn R A) ps.
Proof. intros S pl f raw g I J E. now apply (proj1 (S pl I) f raw). Qed.
Section Loading.
  Variable R : path -> path -> Prop.
  Hypothesis RX : forall p p' k, R p p' -> R (p ++ [k]) (p' ++ [k]).
  Variable h : host.
  Variable ps : list plugin.
  Hypothesis St : steady R None ps.
  Lemma create_file_like p p' name b : R p p' -> both (like_error R) (like_node R None) (create_from_file h ps true p name b) (create_from_file h ps true p' name b).
  Proof.
    intros Q. unfold create_from_file. apply (both_bind _ (like_parsed R None)); [|intros; cbn; now constructor].
    destruct (extension name) as [e|]; [|constructor]. destruct (text_eqb e (lit "html")); [|destruct (text_eqb e (lit "md")); [|destruct (text_eqb e (lit "json"))]].
    - apply (both_bind _ eq); [destruct (from_utf8 b); cbn; auto; constructor|]. intros t t' ->. pose proof (parse_like R p p' Q (h_ext h) (fns ps) t') as L.
      destruct (parse_html _ _ p t') as [k| | |] eqn:E, (parse_html _ _ p' t') as [k'| | |]; cbn in *; try contradiction; auto; [|now constructor].
      constructor; auto. apply good_tokens. apply (parse_plugins _ _ _ _ _ _ (steady_give _ _ _ St) E).
    - apply (both_bind _ eq); [destruct (from_utf8 b); cbn; auto; constructor|]. intros t t' ->. pose proof (parse_md_like R p p' Q (h_ext h) (fns ps) t') as L.
      destruct (parse_markdown _ _ p t') as [k| | |] eqn:E, (parse_markdown _ _ p' t') as [k'| | |]; cbn in *; try contradiction; auto; [|now constructor].
      destruct L as (fm & l & l' & s & -> & -> & L). constructor; auto. apply good_tokens. apply (markdown_plugins _ _ _ _ _ _ (steady_give _ _ _ St) E).
    - apply (both_bind _ eq); [destruct (from_utf8 b); cbn; auto; constructor|]. intros t t' ->. destruct (h_json h t'); cbn; constructor. repeat split; auto.
    - destruct (find_node_parser e ps) as [np|] eqn:E; [|constructor]. unfold find_node_parser in E. apply find_some in E as [E _]. apply in_flat_map in E as (pl & I & J).
      pose proof (proj2 (St pl I) np J b p p' Q) as L. destruct (npa_parse np b p), (npa_parse np b p'); try contradiction; [subst; constructor|]. cbn. now constructor.
  Qed.
  Lemma create_like e : forall p p' name, R p p' -> both (like_error R) (like_node R None) (create_from h ps true p name e) (create_from h ps true p' name e).
  Proof.
    induction e as [b| |l IH] using ent_ind2; intros p p' name Q; cbn [create_from].
    - now apply create_file_like.
    - constructor.
    - apply (both_bind _ (Forall2 (like_node R None))); [|intros; cbn; now constructor]. apply (both_list _ eq).
      + clear. induction l; constructor; auto.
      + intros x x' I <-. rewrite Forall_forall in IH. apply IH; auto.
  Qed.
End Loading.

(** ** Builds *)
Lemma build_like R A h osenv osenv' mode mode' d d' st st' : cf_meta (st_config st') = cf_meta (st_config st) -> agree A (build_vars osenv mode) (build_vars osenv' mode') ->
  both (like_error R) (like_node R A) (node_new h (st_plugins st) true (sd_path d) (sd_name d) (sd_ent d)) (node_new h (st_plugins st') true (sd_path d') (sd_name d') (sd_ent d')) ->
  both (like_error R) eq (snd (build h osenv mode d st)) (snd (build h osenv' mode' d' st')) /\
  (snd (build h osenv mode d st) = Ok tt -> like_opt (like_output R) (st_output (fst (build h osenv mode d st))) (st_output (fst (build h osenv' mode' d' st')))).
Proof.
  intros M G N. unfold build. destruct (node_new h _ _ (sd_path d) _ _) as [n|e|p|], (node_new h _ _ (sd_path d') _ _) as [n'|e'|p'|]; cbn in N; try contradiction; cbn [fst snd]; try (split; [exact N|discriminate]).
  rewrite M. set (meta := cf_meta (st_config st)) in *.
  assert (P : both (like_error R) (like_node R A) (preprocess (Processor h (Some n) (Some (base_frame (build_vars osenv mode))) meta) n) (preprocess (Processor h (Some n') (Some (base_frame (build_vars osenv' mode'))) meta) n')).
  { apply preprocess_like; auto. repeat split; auto; now apply base_like. }
  assert (T := tree_like R A h meta _ _ n n' G N).
  destruct (preprocess _ n) as [i|e|p|], (preprocess _ n') as [i'|e'|p'|]; cbn in P; try contradiction; cbn [fst snd]; try (split; [exact P|discriminate]).
  destruct (build_tree h meta _ n) as [[a o]|e|p|], (build_tree h meta _ n') as [[a' o']|e'|p'|]; cbn in T; try contradiction; cbn [fst snd]; try (split; [exact T|discriminate]).
  split; [reflexivity|]. intros _. apply T.
Qed.

(** ** What is saved *)
Lemma like_ignored R n n' : like_output R n n' -> forall cf p, save_recur cf p n' = save_recur cf p n.
Proof.
  revert n'. induction n as [name b pc meta src|name ch src IH] using node_ind2; intros n' L cf p; inversion L as [|? ? ch' ? src' S H]; subst; cbn [save_recur]; auto.
  f_equal. clear L. induction H as [|x x' ch ch' X H IHl]; cbn [flat_map]; auto. inversion IH; subst. f_equal; auto.
Qed.
Lemma like_save R o o' : like_output R o o' -> forall cf p, save_ops cf p o' = save_ops cf p o.
Proof.
  intros L cf p. destruct L as [|name ch ch' src src' S H]; auto. cbn [save_ops]. do 3 f_equal. induction H as [|x x' ch ch' X H IH]; cbn [flat_map]; auto. rewrite IH. f_equal. now apply (like_ignored R).
Qed.
Lemma like_meta R n : forall n' first, like_output R n n' -> metadata_recur first n' = metadata_recur first n.
Proof.
  induction n as [name b pc meta src|name ch src IH] using node_ind2; intros n' first L; inversion L as [|? ? ch' ? src' S H]; subst; cbn [metadata_recur]; auto.
  replace (map_res (metadata_recur false) ch') with (map_res (metadata_recur false) ch); auto. clear L. induction H as [|x x' ch ch' X H IHl]; auto. inversion IH; subst. cbn [map_res]. rewrite (H2 _ false X).
  fold (map_res (metadata_recur false)). now rewrite (IHl H3).
Qed.

(** ** The same sources elsewhere *)
Lemma move_build h osenv mode name c p p' st : steady (moved p p') None (st_plugins st) ->
  let (b, r) := build h osenv mode (SourceDir p name c) st in let (b', r') := build h osenv mode (SourceDir p' name c) st in
  both (like_error (moved p p')) eq r r' /\
  (r = Ok tt -> like_opt (like_output (moved p p')) (st_output b) (st_output b') /\
    (forall f dir d, save f b' dir d = save f b dir d) /\ metadata_value b' = metadata_value b).
Proof.
  intros St. assert (H := build_like (moved p p') None h osenv osenv mode mode (SourceDir p name c) (SourceDir p' name c) st st eq_refl).
  assert (Cf : forall q, st_config (fst (build h osenv mode (SourceDir q name c) st)) = st_config st).
  { intros q. unfold build. repeat match goal with |- context [match ?x with _ => _ end] => destruct x; auto end. }
  assert (C1 := Cf p). assert (C2 := Cf p'). clear Cf.
  destruct (build h osenv mode (SourceDir p name c) st) as [b r], (build h osenv mode (SourceDir p' name c) st) as [b' r']. cbn [fst snd sd_path sd_name sd_ent] in *.
  destruct H as [H1 H2].
  - reflexivity.
  - assert (H0 : moved p p' p p') by (exists []; now rewrite !app_nil_r).
    unfold node_new. destruct c as [[| |]|]; try (cbn; now constructor). apply create_like; auto.
    + intros q q' k (ks & -> & ->). exists (ks ++ [k]). now rewrite !app_assoc.
  - split; auto. intros E. specialize (H2 E). split; auto. split.
    + intros f dir d. unfold save. rewrite C1, C2. destruct (st_output b), (st_output b'); cbn in H2; try contradiction; auto. now rewrite (like_save _ _ _ H2).
    + unfold metadata_value. rewrite C1, C2. destruct (st_output b), (st_output b'); cbn in H2; try contradiction; auto. destruct (negb _); auto. now rewrite (like_meta _ _ _ true H2).
Qed.

(** ** The same sources in another environment *)
Lemma same_output n : forall n', like_output eq n n' -> n' = n.
Proof.
  induction n as [name b pc meta src|name ch src IH] using node_ind2; intros n' L; inversion L as [|? ? ch' ? src' S H]; subst; auto. f_equal. clear L. induction H; auto. inversion IH; subst. f_equal; auto.
Qed.
Lemma tokens_refl (R : path -> path -> Prop) (toks : list ltoken) : (forall q, R q q) -> like_tokens R toks toks.
Proof. intros Q. induction toks; constructor; auto. repeat split; auto. Qed.
Lemma node_refl (R : path -> path -> Prop) A n : (forall q, R q q) -> (forall f, inside f n -> is_file f = true -> like_parsed R A (n_parsed f) (n_parsed f)) -> like_node R A n n.
Proof.
  intros Q. induction n as [name b pc meta src|name ch src IH] using node_ind2; intros H.
  - constructor; auto. apply (H _ (in_here _) eq_refl).
  - constructor; auto. assert (X : forall x, In x ch -> like_node R A x x).
    { intros x I. rewrite Forall_forall in IH. apply IH; auto. intros f J. apply H. now apply (in_child _ _ _ _ x). }
    clear -X. induction ch; constructor; [apply X; cbn; auto|]. apply IHch. intros; apply X; cbn; auto.
Qed.
Lemma same_error e e' : like_error eq e e' -> e' = e.
Proof. intros []; subst; auto; destruct t, t', H as (? & ? & ? & ?); cbn in *; now subst. Qed.
Lemma env_build h osenv osenv' mode mode' d st : (forall e, sd_ent d = Some e -> steady eq (Some (mentioned h (st_plugins st) e)) (st_plugins st) /\
    agree (Some (mentioned h (st_plugins st) e)) (osenv ++ [(lit "STUART_ENV", mode)]) (osenv' ++ [(lit "STUART_ENV", mode')])) ->
  let (b, r) := build h osenv mode d st in let (b', r') := build h osenv' mode' d st in r' = r /\ st_output b' = st_output b.
Proof.
  intros H. destruct (node_new h (st_plugins st) true (sd_path d) (sd_name d) (sd_ent d)) as [n|x|q|] eqn:N; try (unfold build; rewrite N; now split).
  destruct (sd_ent d) as [[b|l|]|] eqn:De; try discriminate. cbn [node_new] in N.
  destruct (H _ eq_refl) as [St G]. clear H. set (A := Some (mentioned h (st_plugins st) (EDir l))) in *.
  assert (X := build_like eq A h osenv osenv' mode mode' d d st st eq_refl G).
  assert (K : forall v m, snd (build h v m d st) = Ok tt \/ st_output (fst (build h v m d st)) = st_output st).
  { intros v m. unfold build. repeat match goal with |- context [match ?x with _ => _ end] => destruct x; auto end. }
  assert (K1 := K osenv mode). assert (K2 := K osenv' mode'). clear K.
  destruct (build h osenv mode d st) as [b r], (build h osenv' mode' d st) as [b' r']. cbn [fst snd] in *.
  destruct X as [X1 X2].
  - rewrite De. cbn [node_new]. rewrite N. cbn. apply node_refl; auto. intros f I F.
    destruct (inside_file _ _ _ _ _ _ _ N I F) as [[_ (b1 & E & _)]|(dirs & k & b1 & At & C)]; [discriminate|].
    assert (PL : tree_good (steady_fn eq A) n) by (apply (create_good _ _ _ _ (steady_give _ _ _ St) _ _ _ N)). specialize (PL f I).
    assert (T := file_tokens _ _ _ _ _ _ _ _ _ eq_refl At C). destruct f as [name bb pc meta src|]; [|discriminate F]. cbn [n_parsed file_good] in *.
    assert (Gd : forall body toks, tagged_text (EDir l) (dirs ++ [k]) body -> parse_html (h_ext h) (fns (st_plugins st)) (sd_path d ++ dirs ++ [k]) body = Ok toks ->
      plugins_of (steady_fn eq A) toks -> Forall (good eq A) toks).
    { intros body toks Tb P Pl. apply Forall_forall. intros [t lo] It. split; cbn [t_inner].
      - intros v Rv x p Nx Ev. subst v. exists (dirs ++ [k]), body, (map t_inner toks), t. split; [exact Tb|]. split; [|split; [now apply (in_map t_inner) in It|now apply (re_reads _ _ p)]].
        apply (GrammarFacts.parse_means _ _ (sd_path d ++ dirs ++ [k])). now exists toks.
      - intros p ->. now apply (Pl p lo). }
    destruct pc as [t|m|v|c| |]; try constructor.
    + now apply tokens_refl.
    + destruct T as (_ & body & T1 & T2). now apply (Gd body).
    + destruct m as [fm t s hh]. cbn [md_tokens] in *. destruct T as (_ & body & T1 & T2). constructor; [now apply tokens_refl|]. apply (Gd body); auto. apply PL.
    + destruct T as (ext & np & _ & _ & (a & bb' & E & _) & P). assert (In np (flat_map pl_parsers (st_plugins st))) by (rewrite E; apply in_elt). apply in_flat_map in H as (pl & I1 & I2).
      assert (Q := proj2 (St pl I1) np I2 b1 (sd_path d ++ dirs ++ [k]) _ eq_refl). now rewrite P in Q.
  - destruct r as [[]|x|q|], r' as [[]|x'|q'|]; cbn in X1; try contradiction.
    + split; auto. specialize (X2 eq_refl). destruct (st_output b), (st_output b'); cbn in X2; try contradiction; auto. f_equal. now apply same_output.
    + apply same_error in X1. split; [now subst|]. destruct K1; [discriminate|]. destruct K2; [discriminate|]. congruence.
    + split; [now subst|]. destruct K1; [discriminate|]. destruct K2; [discriminate|]. congruence.
    + split; auto. destruct K1; [discriminate|]. destruct K2; [discriminate|]. congruence.
Qed.
Lemma mentions h ps content x : mentioned h ps content x -> exists ks body toks t v p, tagged_text content ks body /\
  parse_html (h_ext h) (fns ps) [] body = Ok toks /\ In t toks /\ reads_var (t_inner t) v /\ split_char c_dot v = (lit "env", x :: p).
Proof.
  intros (ks & body & toks & k & T & M & I & [p N V]). apply (GrammarFacts.parse_means _ _ []) in M as (l & P & <-). apply in_map_iff in I as (t & <- & I).
  set (v := dotted (lit "env") (x :: p)) in *. exists ks, body, l, t, v. destruct (split_char c_dot (dotted x p)) as [h' r] eqn:S.
  assert (H : h' = x). { destruct p as [|q p]; cbn [dotted] in S; [rewrite split_char_nil in S by auto; congruence|].
    destruct (split_char c_dot (dotted q p)) as [h2 r2] eqn:S2. cbn [app] in S.
    rewrite (split_char_app c_dot x (dotted q p) h2 r2) in S; auto. congruence. }
  subst h'. exists r. split; [exact T|]. split; [exact P|]. split; [exact I|]. split; [exact V|]. unfold v. cbn [dotted]. apply split_char_app; [intros [E|[E|[E|[]]]]; discriminate E|exact S].
Qed.

(** ** Plugins that do not mind *)
Lemma same_frame f f' : like_frame None f f' -> f' = f.
Proof.
  destruct f as [n v o], f' as [n' v' o']. intros (N & O & V). cbn in *. subst. f_equal. induction V as [|[k x] [k' x'] l l' [K X] V IH]; auto. cbn in *. subst. f_equal. f_equal.
  destruct X as [->|(_ & a & a' & -> & -> & G)]; auto. cbn in G. now subst.
Qed.
Lemma same_scope s s' : like_scope None s s' -> s' = s.
Proof.
  destruct s as [i st sec], s' as [i' st' sec']. intros (I & S & V). cbn in *. subst. f_equal. induction V; auto. f_equal; auto. now apply same_frame.
Qed.
Lemma js_steady R name code r f : pp_parse (Js.js_plugin_parser name code) r = inr f -> steady_fn R None f.
Proof.
  intros E l l' s s' L S. injection E as <-. cbn [pf_exec]. apply same_scope in S as ->. unfold Js.js_exec. apply (both_bind _ eq).
  - assert (H : both (like_tb R) (Forall2 eq) (map_res (Js.js_arg l s) (rf_pos r)) (map_res (Js.js_arg l' s) (rf_pos r))).
    { apply (both_list _ eq).
      - induction (rf_pos r); auto.
      - intros x x' _ <-. destruct x as [n| | |]; cbn; auto; [destruct (get_variable n _); [reflexivity|]|]; now apply (tb_like R). }
    eapply both_weak; [exact H|auto|]. intros x x' F. induction F; subst; auto.
  - intros v v' ->. assert (T : forall s0, like_scope None s0 s0). { intros s0. repeat split. induction (sc_stack s0); constructor; auto. apply frame_refl. }
    assert (J : forall p s0, both (like_tb R) eq (Js.js_run p s0) (Js.js_run p s0)).
    { clear -L. induction p as [r|n k IH|n v p IH]; intros s0; cbn [Js.js_run]; [reflexivity|apply IH|]. destruct (Js.js_to_json v) as [[y|]| | |]; cbn; auto. destruct (sc_stack s0); cbn; auto. }
    apply (both_bind _ eq); [apply J|]. intros [s2 o] [s2' o'] X. injection X as -> ->. cbn [fst snd]. destruct o'; [|apply T]. destruct (output _ _); cbn; auto.
Qed.
Lemma shipped_steady R A o : steady R A [Shipped.imgopt o; Shipped.demo].
Proof.
  intros pl [<-|[<-|[]]]; split; cbn.
  - intros f raw g [].
  - intros np [<-|[]] b p p' _. cbn. split; auto.
  - intros f raw g [<-|[]]. cbn. destruct (rf_pos raw), (rf_named raw); try discriminate. intros E l l' s s' L S. injection E as <-. cbn [pf_exec Shipped.demo_fn].
    pose proof (output_like A (enc (lit "<p>This was written by the demo function!</p>")) s s' S) as H. destruct (output _ s), (output _ s'); cbn in *; try contradiction; auto.
  - intros np [].
Qed.
Lemma js_all_steady R ps : (forall pl, In pl ps -> pl_parsers pl = [] /\ forall f, In f (pl_fns pl) -> exists name code, f = js_plugin_parser name code) ->
  steady R None ps.
Proof.
  intros H pl I. destruct (H pl I) as [N F]. split; [|now rewrite N]. intros f raw g J. destruct (F f J) as (name & code & ->). exact (js_steady R name code raw g).
Qed.
