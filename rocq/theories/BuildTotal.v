(** BuildTotal.v -- a build ends without a panic (C36). *)

From Coq Require Import String List NArith ZArith Bool Lia.
From Verif Require Import Text Utf8 Json Base Lexer Syntax Parse Tree Interp Build SpecTemplate SpecScope SpecPage SpecTree.
From Verif Require Import TextFacts CharFacts CallFacts ParseInv InterpFacts TotalFacts TreeFacts.
Import ListNotations.

(** ** Plugin functions of tokens *)
Lemma resolve_plugin t raw g : resolve t raw = Ok (FPlugin g) -> exists plugin f, In (plugin, f) (flat_table t) /\ pp_parse f raw = inr g.
Proof.
  destruct raw as [name pos named]. intros E.
  assert (D : denotes t (GCall name pos named) (TFun (FPlugin g))) by (apply resolve_denotes; now exists (FPlugin g)).
  inversion D as [|? ? ? ? B|? ? ? f ? _ F P]; subst; [inversion B|].
  destruct F as (l1 & q & l2 & F & _). exists q, f. split; [|exact P]. rewrite F. apply in_elt.
Qed.
Lemma parse_tag_plugin ext t file p g loc p' : parse_tag ext t file p = Ok (LTok (TFun (FPlugin g)) loc, p') ->
  exists plugin f raw, In (plugin, f) (flat_table t) /\ pp_parse f raw = inr g.
Proof.
  unfold parse_tag. destruct (location _) as [line col]. destruct (p_peek _) as [c|]; [|discriminate]. destruct (c =? c_dollar)%N.
  - unfold parse_variable. destruct (p_expect _ _ _) as [p2| | |]; cbn [bind]; try discriminate.
    destruct (extract_while _ _) as [[|n name] p3]; cbn [bind]; try discriminate.
    destruct (p_expect _ _ _) as [p4| | |]; cbn [bind]; discriminate.
  - unfold parse_function. destruct (location _) as [line' col']. destruct (extract_while _ _) as [[|n name] p1]; [discriminate|].
    destruct (p_expect _ _ _) as [p3| | |]; cbn [bind]; try discriminate.
    destruct (parse_args _ _ _ _ _ _) as [[[pos named] p4]| | |]; cbn [bind]; try discriminate.
    destruct (resolve t _) as [f| | |] eqn:R; cbn [map_err bind]; try discriminate.
    destruct (p_expect _ _ _) as [p5| | |]; cbn [bind]; try discriminate. intros E; injection E as -> _ _.
    destruct (resolve_plugin _ _ _ R) as (q & f & F). now exists q, f, (RawFn (n :: name) pos named).
Qed.
Lemma html_loop_plugin ext t file g loc fuel : forall pos p toks, html_loop fuel ext t file pos p = Ok toks ->
  In (LTok (TFun (FPlugin g)) loc) toks -> exists plugin f raw, In (plugin, f) (flat_table t) /\ pp_parse f raw = inr g.
Proof.
  assert (RT : forall pos s, ~ In (LTok (TFun (FPlugin g)) loc) (raw_token file pos s)).
  { intros pos [|c s]; cbn; [tauto|]. intros [X|[]]. discriminate X. }
  induction fuel as [|fuel IH]; intros pos p toks E I; [discriminate|]. cbn [html_loop] in E.
  destruct (extract_until _ _ _) as [[raw|] p1].
  - destruct (parse_tag ext t file p1) as [[tk p2]| | |] eqn:T; cbn [bind] in E; try discriminate.
    destruct (html_loop fuel _ _ _ _ _) as [rest| | |] eqn:H; cbn [bind] in E; try discriminate. injection E as <-.
    apply in_app_iff in I. destruct I as [I|[->|I]]; [now apply RT in I| |].
    + now apply parse_tag_plugin in T.
    + now apply (IH _ _ _ H).
  - injection E as <-. now apply RT in I.
Qed.
Lemma parse_plugins P ext ps file input toks : plugins_give P ps -> parse_html ext (fns ps) file input = Ok toks -> plugins_of P toks.
Proof.
  intros G E p l I. destruct (html_loop_plugin _ _ _ _ _ _ _ _ _ E I) as (q & f & raw & F & R).
  unfold flat_table, fns in F. apply in_flat_map in F. destruct F as ([n fs] & F1 & F2). apply in_map_iff in F1, F2.
  destruct F1 as (pl & F1 & F3), F2 as (f' & F2 & F4). injection F1 as <- <-. cbn [fst snd] in *. injection F2 as _ ->.
  now apply (G pl f raw).
Qed.
Lemma markdown_plugins P ext ps file input m : plugins_give P ps -> parse_markdown ext (fns ps) file input = Ok m -> plugins_of P (md_tokens m).
Proof.
  intros G. unfold parse_markdown. match goal with |- bind ?x _ = _ -> _ => destruct x as [[n fm]|e|p|] end; cbn [bind]; try discriminate.
  destruct (parse_html _ _ _ _) as [toks| | |] eqn:E; cbn [bind]; try discriminate. intros X; injection X as <-. cbn. now apply (parse_plugins P) in E.
Qed.

(** ** Trees of templates with good plugins *)
Definition file_good (P : plugin_fn -> Prop) (n : node) : Prop :=
  match n with
  | NFile name _ (PHtml t) _ _ => plugins_of P t
  | NFile name _ (PMarkdown m) _ _ => plugins_of P (md_tokens m) /\ exists stem, name = stem ++ lit ".md"
  | _ => True
  end.
Definition tree_good (P : plugin_fn -> Prop) (n : node) : Prop := forall f, inside f n -> file_good P f.
Lemma tree_good_file P name b p meta src : file_good P (NFile name b p meta src) -> tree_good P (NFile name b p meta src).
Proof. intros G f I. now inversion I; subst. Qed.
Lemma tree_good_dir P name ch src : Forall (tree_good P) ch -> tree_good P (NDir name ch src).
Proof. intros G f J. inversion J; subst; [exact I|]. rewrite Forall_forall in G. now apply (G c). Qed.
Lemma tree_good_child P name ch src c : tree_good P (NDir name ch src) -> In c ch -> tree_good P c.
Proof. intros G I f H. apply G. now apply (in_child _ _ _ _ c). Qed.
Lemma tree_good_children P name ch src : tree_good P (NDir name ch src) -> Forall (tree_good P) ch.
Proof. intros G. apply Forall_forall. intros c. now apply (tree_good_child _ name ch src). Qed.
Lemma create_good P h ps e : plugins_give P ps -> forall p name n, create_from h ps true p name e = Ok n -> tree_good P n.
Proof.
  intros G. induction e as [b| |l IH] using ent_ind2; intros p name n; cbn [create_from]; try discriminate.
  - unfold create_from_file. destruct (extension name) as [e|] eqn:X; cbn [bind].
    2: { intros E; injection E as <-. apply tree_good_file. exact I. }
    apply extension_spec in X.
    destruct (text_eqb e (lit "html")) eqn:E1; [apply text_eqb_eq in E1; subst e|].
    { destruct (from_utf8 b) as [t|]; cbn [ok_or bind]; [|discriminate].
      destruct (parse_html _ _ _ _) eqn:E; cbn [map_err bind]; try discriminate. intros Y; injection Y as <-. apply tree_good_file. cbn. now apply (parse_plugins P) in E. }
    destruct (text_eqb e (lit "md")) eqn:E2; [apply text_eqb_eq in E2; subst e|].
    { destruct (from_utf8 b) as [t|]; cbn [ok_or bind]; [|discriminate].
      destruct (parse_markdown _ _ _ _) eqn:E; cbn [map_err bind]; try discriminate. intros Y; injection Y as <-. apply tree_good_file. cbn.
      split; [now apply (markdown_plugins P) in E|]. destruct X as (stem & -> & _). exists stem. reflexivity. }
    destruct (text_eqb e (lit "json")).
    { destruct (from_utf8 b) as [t|]; cbn [ok_or bind]; [|discriminate]. destruct (h_json h t); cbn [ok_or bind]; [|discriminate].
      intros Y; injection Y as <-. apply tree_good_file. exact I. }
    destruct (find_node_parser e ps) as [np|]; cbn [bind]; [destruct (npa_parse np b p); cbn [bind]; [discriminate|]|];
      intros Y; injection Y as <-; apply tree_good_file; exact I.
  - destruct (map_res _ l) as [ch| | |] eqn:M; cbn [bind]; try discriminate. intros E; injection E as <-. apply tree_good_dir.
    apply map_res_ok in M. clear -IH M. induction M as [|[k x] c l ch H M IHM]; constructor; inversion IH; subst.
    + cbn [fst snd] in *. eauto.
    + now apply IHM.
Qed.
Lemma preprocess_good P pr n : forall n', tree_good P n -> preprocess pr n = Ok n' -> tree_good P n' /\ rendered n'.
Proof.
  induction n as [name b p meta src|name ch src IH] using node_ind2; intros n' G; cbn [preprocess].
  - assert (F := G _ (in_here _)). destruct p; try (intros E; injection E as <-; split; [exact G|]; intros ? ? ? ? ? I; inversion I).
    destruct (preprocess_markdown pr src m) as [m'| | |] eqn:Q; cbn [map_err bind]; try discriminate. intros E; injection E as <-.
    unfold preprocess_markdown in Q. destruct (pr_base pr); [|discriminate]. destruct (phase _ _ _ _) as [s| | |]; cbn [bind] in Q; try discriminate.
    destruct (sc_stack s) as [|f0 r]; [discriminate|]. destruct (is_base f0); [|discriminate]. destruct (from_utf8 _); [|discriminate]. injection Q as <-.
    split; [now apply tree_good_file|]. intros ? ? ? ? ? I. inversion I; subst. discriminate.
  - destruct (map_res _ ch) as [ch'| | |] eqn:M; cbn [bind]; try discriminate. intros E; injection E as <-. apply map_res_ok in M.
    assert (X : Forall (fun c => tree_good P c /\ rendered c) ch').
    { assert (GC := tree_good_children _ _ _ _ G). clear G.
      induction M as [|c c' ch ch' H M IHM]; constructor; inversion IH; inversion GC; subst; auto. }
    split; [apply tree_good_dir; apply (Forall_impl _ (fun c => @proj1 _ _) X)|].
    intros nm b m meta s J. inversion J as [|? ? ? ? c Ic Jc]; subst. rewrite Forall_forall in X. destruct (X c Ic) as [_ R]. now apply R in Jc.
Qed.

(** ** Rendering *)
Section Total.
  Variable pr : processor.
  Variable i : node.
  Variable b0 : frame.
  Hypothesis Hi : pr_input pr = Some i.
  Hypothesis Hb : pr_base pr = Some b0.
  Hypothesis Hc : ~ In c_colon (fr_name b0).
  Let good (p : plugin_fn) := plugin_ok p /\ plugin_total p.
  Lemma good_ok toks : plugins_of good toks -> plugins_of plugin_ok toks.
  Proof. intros G p l I. now apply (G p l). Qed.
  Lemma good_total toks : plugins_of good toks -> plugins_of plugin_total toks.
  Proof. intros G p l I. now apply (G p l). Qed.

  Lemma body_ends src m : plugins_of good (md_tokens m) -> loops_ready i (md_tokens m) ->
    match preprocess_markdown pr src m with Ok _ | Err _ => True | _ => False end.
  Proof.
    intros G L. unfold preprocess_markdown. rewrite Hb.
    assert (A := phase_total True pr i Hi (md_tokens m) b0 [] (fun _ => L) (good_ok _ G) (fun _ => good_total _ G) Hc).
    destruct (phase _ _ _ _) as [s|e|p|]; cbn [bind]; try exact I; try (now apply A).
    destruct (sc_stack s) as [|f r]; [exact I|]. destruct (is_base f); [|exact I]. now destruct (from_utf8 (fr_out f)).
  Qed.
  Lemma preprocess_ends n : tree_good good n ->
    (forall name b m meta src, inside (NFile name b (PMarkdown m) meta src) n -> loops_ready i (md_tokens m)) ->
    match preprocess pr n with Ok _ | Err _ => True | _ => False end.
  Proof.
    induction n as [name b p meta src|name ch src IH] using node_ind2; intros G L; cbn [preprocess].
    - assert (F := G _ (in_here _)). destruct p; try exact I.
      assert (A := body_ends src m (proj1 F) (L _ _ _ _ _ (in_here _))). now destruct (preprocess_markdown pr src m).
    - assert (A : match map_res (preprocess pr) ch with Ok _ | Err _ => True | _ => False end); [|now destruct (map_res _ ch)].
      assert (GC := tree_good_children _ _ _ _ G).
      assert (LC : forall c, In c ch -> forall nm b m meta s, inside (NFile nm b (PMarkdown m) meta s) c -> loops_ready i (md_tokens m)).
      { intros c Ic nm b m meta s I. apply (L nm b m meta s). now apply (in_child _ _ _ _ c). }
      clear G L. induction ch as [|c ch IHc]; cbn [map_res]; [exact I|]. inversion IH; inversion GC; subst.
      assert (B := H1 H5 (LC c (or_introl eq_refl))). destruct (preprocess pr c); cbn [bind]; try exact B.
      specialize (IHc H2 H6 (fun d Id => LC d (or_intror Id))). now destruct (map_res _ ch).
  Qed.

  Hypothesis Hr : rendered i.
  Definition env_good (e : env) : Prop :=
    (forall t, ev_root e = Some t -> plugins_of good t) /\ (forall t, ev_md e = Some t -> plugins_of good t).
  Lemma env_child_good e c : env_good e -> tree_good good c -> env_good (env_child e c).
  Proof.
    intros [E1 E2] G. assert (X : forall t, match n_parsed c with PHtml t => Some t | _ => None end = Some t -> plugins_of good t).
    { intros t. assert (F := G _ (in_here _)). destruct c as [nm b p meta s|]; cbn; [|discriminate]. destruct p; try discriminate.
      intros Y; injection Y as <-. exact F. }
    unfold env_child. destruct (text_eqb _ _); [now split|]. destruct (text_eqb _ _); now split.
  Qed.
  Lemma env_update_good ch : forall e, env_good e -> Forall (tree_good good) ch -> env_good (env_update e ch).
  Proof.
    unfold env_update. induction ch as [|c ch IH]; intros e E F; cbn [fold_left]; [exact E|]. inversion F; subst.
    apply IH; [now apply env_child_good|assumption].
  Qed.
  Lemma no_tokens_good : plugins_of good [].
  Proof. intros p l I. inversion I. Qed.
  Lemma file_ends e name b p meta src : env_good e -> file_good good (NFile name b p meta src) ->
    (forall m, p = PMarkdown m -> md_html m <> None) ->
    match process_file pr e name b p src with Ok _ | Err _ => True | _ => False end.
  Proof.
    intros [E1 E2] F R. unfold process_file. destruct (is_template_name name); [exact I|].
    assert (RT : plugins_of good (root_tokens e)).
    { unfold root_tokens. destruct (ev_root e) as [t|]; [now apply E1|apply no_tokens_good]. }
    destruct p as [t|m|v|c| |]; cbn [bind]; try exact I.
    - assert (A := page_total pr i b0 e src (PageHtml t) Hi Hb Hc (good_ok _ F) (good_ok _ RT) (good_total _ F) (good_total _ RT) Hr I).
      cbn [render_page] in A. now destruct (process_html pr e src t).
    - assert (MT : plugins_of good (page_tokens e (PageMd name m))).
      { cbn. destruct (ev_md e) as [t|]; [now apply E2|apply no_tokens_good]. }
      assert (A := page_total pr i b0 e src (PageMd name m) Hi Hb Hc (good_ok _ MT) (good_ok _ RT) (good_total _ MT) (good_total _ RT) Hr
        (conj (R m eq_refl) (proj2 F))).
      cbn [render_page] in A. now destruct (process_markdown pr e src name m).
    - now destruct (np_process c e).
  Qed.
  Lemma build_ends n : forall e, env_good e -> tree_good good n -> rendered n ->
    match build_node pr e n with Ok _ | Err _ => True | _ => False end.
  Proof.
    induction n as [name b p meta src|name ch src IH] using node_ind2; intros e E G R; cbn [build_node].
    - apply (file_ends e name b p meta src); [exact E|now apply (G _ (in_here _))|]. intros m ->. apply (R _ _ _ _ _ (in_here _)).
    - assert (GC := tree_good_children _ _ _ _ G).
      assert (E' := env_update_good ch e E GC). revert E'. generalize (env_update e ch). intros e' E'.
      assert (A : match map_res (build_node pr e') ch with Ok _ | Err _ => True | _ => False end); [|now destruct (map_res _ ch)].
      assert (RC : forall c, In c ch -> rendered c).
      { intros c Ic nm b m meta s I. apply (R nm b m meta s). now apply (in_child _ _ _ _ c). }
      clear G R E. induction ch as [|c ch IHc]; cbn [map_res]; [exact I|]. inversion IH; inversion GC; subst.
      assert (B := H1 e' E' H5 (RC c (or_introl eq_refl))). destruct (build_node pr e' c); cbn [bind]; try exact B.
      specialize (IHc H2 H6 (fun d Id => RC d (or_intror Id))). now destruct (map_res _ ch).
  Qed.
End Total.

Lemma build_total h osenv mode d st : plugins_give (fun p => plugin_ok p /\ plugin_total p) (st_plugins st) ->
  match node_new h (st_plugins st) true (sd_path d) (sd_name d) (sd_ent d) with Ok _ | Err _ => True | _ => False end ->
  (forall input, node_new h (st_plugins st) true (sd_path d) (sd_name d) (sd_ent d) = Ok input -> bodies_ready input) ->
  match snd (build h osenv mode d st) with Ok _ | Err _ => True | _ => False end.
Proof.
  intros G C B. unfold build. set (vars := build_vars osenv mode).
  destruct (node_new _ _ _ _ _ _) as [input|x|q|] eqn:N; try exact C; try exact I. specialize (B _ eq_refl).
  assert (TG : tree_good (fun p => plugin_ok p /\ plugin_total p) input).
  { unfold node_new in N. destruct (sd_ent d) as [[|l|]|]; try discriminate. now apply (create_good _ _ _ _ G) in N. }
  assert (ID : exists nm ch s, input = NDir nm ch s).
  { unfold node_new in N. destruct (sd_ent d) as [[|l|]|]; try discriminate. cbn [create_from] in N.
    destruct (map_res _ l); cbn [bind] in N; try discriminate. injection N as <-. eauto. }
  assert (NC : ~ In c_colon (fr_name (base_frame vars))) by (cbn; intuition discriminate).
  assert (P := preprocess_ends (Processor h (Some input) (Some (base_frame vars)) (cf_meta (st_config st))) input (base_frame vars) eq_refl eq_refl NC input TG B).
  destruct (preprocess _ input) as [input'|x|q|] eqn:Q; try exact P; try exact I. cbn [snd].
  unfold build_tree. rewrite Q. cbn [bind]. destruct (preprocess_good _ _ _ _ TG Q) as [TG' R].
  destruct ID as (nm & ch & s & ->). cbn [preprocess] in Q. destruct (map_res _ ch) as [ch'| | |]; cbn [bind] in Q; try discriminate. injection Q as <-.
  cbn [n_children].
  assert (EG : env_good (Env vars None None)) by (split; discriminate).
  assert (GC := tree_good_children _ _ _ _ TG').
  assert (A := build_ends (Processor h (Some (NDir nm ch' s)) (Some (base_frame vars)) (cf_meta (st_config st))) _ _ eq_refl eq_refl NC R
    (NDir nm ch' s) _ (env_update_good ch' _ EG GC) TG' R).
  now destruct (build_node _ _ _).
Qed.
