(** EncodedFacts.v -- everything published as a page is UTF-8 (C32). *)

From Coq Require Import String List NArith ZArith Bool Lia.
From Verif Require Import Text Utf8 Json Base Syntax Parse Tree Interp Build SpecTemplate SpecGrammar SpecMarkdown SpecScope SpecPage SpecTree SpecSite SpecReads SpecUtf8 SpecEncoded.
From Verif Require Import TextFacts CharFacts CallFacts ParseInv GrammarFacts MarkdownFacts InterpFacts TotalFacts TreeFacts SiteFacts LocalFacts ReadsFacts BuildTotal Utf8Facts Utf8Run.
Import ListNotations.
Local Open Scope N_scope.

(** ** The text of a file *)
Lemma decoded_scalars b t : utf8_text b t -> scalars t.
Proof. intros H. now apply utf8_text_iff in H. Qed.
Lemma scalars_app a b : scalars (a ++ b) <-> scalars a /\ scalars b.
Proof. apply Forall_app. Qed.
Lemma no_tag_scalars t raw : no_tag t raw -> scalars t -> scalars raw.
Proof.
  induction 1 as [|c t raw _ _ N IH|t raw _ N IH]; intros S; [constructor| |].
  - inversion S; subst. constructor; [assumption|]. apply IH. assumption.
  - apply scalars_app in S. apply scalars_app. split; [|now apply IH]. destruct S as [S _]. now inversion S.
Qed.
Lemma first_tag_scalars t raw rest : first_tag t raw rest -> scalars t -> scalars raw /\ scalars rest.
Proof.
  induction 1 as [rest|c t raw rest _ _ N IH|t raw rest _ N IH|rest]; intros S.
  - apply scalars_app in S. split; [constructor|apply S].
  - inversion S; subst. destruct IH; [assumption|]. split; [constructor; assumption|assumption].
  - apply scalars_app in S. destruct S as [S1 S2], (IH S2). split; [|assumption]. apply scalars_app. split; [|assumption]. now inversion S1.
  - apply scalars_app in S. destruct S as [_ S]. apply scalars_app in S. exact S.
Qed.
Definition scalar_tag (g : tag) : Prop := match g with GVar v => scalars v | GCall name pos named => scalar_call (RawFn name pos named) end.
Lemma arg_scalars a t : arg_text a t -> scalars t -> scalar_arg a.
Proof. destruct 1 as [v|s|z t _|s]; cbn [scalar_arg]; rewrite ?scalars_app; tauto. Qed.
Definition scalar_parg (a : parg) : Prop := scalar_arg (snd a) /\ forall n, fst a = Some n -> scalars n.
Lemma parg_scalars a t : parg_text a t -> scalars t -> scalar_parg a.
Proof.
  destruct 1 as [a t A|n a t A]; intros S; apply arg_scalars in A.
  - split; [exact A|discriminate].
  - exact S.
  - split; [exact A|]. intros m E. injection E as <-. now apply scalars_app in S.
  - rewrite !scalars_app in S. apply S.
Qed.
Lemma args_scalars l t : loose_args l t -> scalars t -> Forall scalar_parg l.
Proof.
  induction 1 as [w _|w1 a p w2 _ _ A|w l t _ _ IH|w1 a p w2 l t _ _ A _ IH]; intros S; rewrite ?scalars_app in S.
  - constructor.
  - constructor; [|constructor]. eapply parg_scalars; [exact A|apply S].
  - apply IH, S.
  - constructor; [eapply parg_scalars; [exact A|apply S]|apply IH, S].
Qed.
Lemma tag_scalars ext g b : loose_tag ext g b -> scalars b -> scalar_tag g.
Proof.
  destruct 1 as [v _ _|name w pos named t _ _ _ _ A]; intros S; [now inversion S|]. rewrite !scalars_app in S. destruct S as (S1 & _ & _ & S2 & _).
  assert (F := args_scalars _ _ A S2). unfold pargs in F. apply Forall_app in F. destruct F as [F1 F2]. rewrite Forall_map in F1, F2.
  split; [exact S1|]. split; cbn [rf_pos rf_named]; [revert F1|revert F2]; apply Forall_impl; intros x [A1 A2]; [exact A1|]. split; [now apply A2|exact A1].
Qed.
Lemma template_scalars ext l r t : loose_template ext l r t -> scalars t -> scalars r /\ Forall (fun x => scalars (fst x) /\ scalar_tag (snd x)) l.
Proof.
  induction 1 as [t r N|t s g w1 b w2 l r t' F _ _ B L IH]; intros S.
  - split; [now apply (no_tag_scalars t)|constructor].
  - apply first_tag_scalars in F; [|exact S]. destruct F as [F1 F2]. rewrite !scalars_app in F2. destruct IH; [tauto|]. split; [assumption|]. constructor; [|assumption].
    split; [exact F1|]. eapply tag_scalars; [exact B|tauto].
Qed.
Lemma tokens_scalars ps l r ks : scalar_plugins ps -> template_tokens (fns ps) l r ks -> scalars r -> Forall (fun x => scalars (fst x) /\ scalar_tag (snd x)) l ->
  Forall (fun k => scalar_token (LTok k (Loc [] 0 0))) ks.
Proof.
  intros G. assert (R : forall s, scalars s -> Forall (fun k => scalar_token (LTok k (Loc [] 0 0))) (raw_part s)).
  { intros [|c s] S; cbn; constructor; [exact S|constructor]. }
  induction 1 as [r|s g l r k ks D T IH]; intros S F; [now apply R|]. inversion F as [|? ? [F1 F2] F3]; subst. apply Forall_app. split; [now apply R|].
  constructor; [|auto]. destruct D as [v|name pos named f B|name pos named p q N (l1 & pl & l2 & E & _) P]; [exact I|destruct B; exact I|].
  cbn [scalar_token t_inner]. assert (J : In (pl, p) (flat_table (fns ps))) by (rewrite E; apply in_elt).
  unfold flat_table, fns in J. apply in_flat_map in J. destruct J as ([n fs] & J1 & J2). apply in_map_iff in J1, J2.
  destruct J1 as (pp & J1 & J3), J2 as (f' & J2 & J4). injection J1 as <- <-. cbn [fst snd] in *. injection J2 as _ ->.
  eapply G; [exact J3|exact J4| |exact P]. exact F2.
Qed.
Lemma parsed_scalars ext ps file t toks : scalar_plugins ps -> scalars t -> parse_html ext (fns ps) file t = Ok toks -> Forall scalar_token toks.
Proof.
  intros G S P.
  assert (M : SpecGrammar.means ext (fns ps) t (map t_inner toks)) by (apply (parse_means _ _ file); eauto). destruct M as (l & r & L & T).
  destruct (template_scalars _ _ _ _ L S) as [S1 S2]. assert (F := tokens_scalars _ _ _ _ G T S1 S2). rewrite Forall_map in F.
  revert F. apply Forall_impl. intros [k loc] F. exact F.
Qed.
Lemma ended_scalars ls t : ended_lines ls t -> scalars t -> Forall scalars ls.
Proof.
  induction 1 as [|l ls t _ _ E IH|l ls t _ E IH]; intros S; [constructor| |]; rewrite !scalars_app in S; constructor; try apply S; apply IH, S.
Qed.
Lemma lines_scalars ls t : text_lines ls t -> scalars t -> Forall scalars ls.
Proof.
  destruct 1 as [ls t E|ls t l E _ _]; intros S; [now apply (ended_scalars _ t)|]. apply scalars_app in S. apply Forall_app.
  split; [now apply (ended_scalars _ t)|]. constructor; [apply S|constructor].
Qed.
Lemma with_lf_scalars ls : Forall scalars ls -> scalars (with_lf ls).
Proof.
  induction 1 as [|l ls S F IH]; [constructor|]. cbn [with_lf]. destruct ls; [exact S|]. rewrite !scalars_app. repeat split; [exact S| |exact IH].
  constructor; [left; reflexivity|constructor].
Qed.
Lemma parts_scalars t fm body : md_parts t fm body -> scalars t -> Forall (fun kv => scalars (snd kv)) fm /\ scalars body.
Proof.
  intros [(_ & -> & ls & L & ->)|(_ & fs & d & ls & L & F & _ & _ & ->)] S; apply lines_scalars in L; try exact S.
  - split; [constructor|now apply with_lf_scalars].
  - inversion L as [|? ? _ L2]; subst. apply Forall_app in L2. destruct L2 as [L2 L3]. inversion L3; subst. split; [|now apply with_lf_scalars].
    clear - F L2. induction F as [|kv l fm fs P F IH]; [constructor|]. inversion L2 as [|? ? L L2']; subst. constructor; [|auto].
    destruct P as (w1 & w2 & w3 & w4 & _ & _ & _ & _ & _ & _ & ->). rewrite !scalars_app in L. tauto.
Qed.

(** ** Trees *)
Section Encoded.
  Variable h : host.
  Variable ps : list plugin.
  Hypothesis Host : scalar_host h.
  Hypothesis Fns : scalar_plugins ps.
  Hypothesis Parsers : forall np, In np (flat_map pl_parsers ps) -> html_parser np.

  Definition fine_file (f : node) : Prop :=
    match f with
    | NFile name b (PHtml t) _ _ => Forall scalar_token t /\ utf8 b
    | NFile name b (PMarkdown m) _ _ => (Forall scalar_token (md_tokens m) /\ scalar_markdown m) /\ ~ has_ext name (lit "html")
    | NFile name b (PJson v) _ _ => scalar_value v /\ ~ has_ext name (lit "html")
    | NFile name b (PCustom c) _ _ => ~ has_ext name (lit "html") /\
        forall e o nm, np_process c e = inr o -> po_name o = Some nm -> has_ext nm (lit "html") ->
          utf8 (match po_contents o with Some b' => b' | None => b end)
    | NFile name b _ _ _ => ~ has_ext name (lit "html")
    | NDir _ _ _ => True
    end.
  Definition fine (n : node) : Prop := forall f, inside f n -> fine_file f.
  Lemma fine_site n : fine n -> scalar_site n.
  Proof. intros F. split; intros name b x meta src I; apply F in I; cbn in I; apply I. Qed.
  Lemma fine_dir name ch src : Forall fine ch -> fine (NDir name ch src).
  Proof. intros G f J. inversion J; subst; [exact I|]. rewrite Forall_forall in G. now apply (G c). Qed.
  Lemma fine_one name b p meta src : fine_file (NFile name b p meta src) -> fine (NFile name b p meta src).
  Proof. intros G f J. now inversion J; subst. Qed.

  Lemma create_fine e : forall p name n, create_from h ps true p name e = Ok n -> fine n.
  Proof.
    induction e as [b| |l IH] using ent_ind2; intros p name n; cbn [create_from]; try discriminate.
    - unfold create_from_file. destruct (extension name) as [ex|] eqn:X; cbn [bind].
      2: { intros E; injection E as <-. apply fine_one. intros K. apply extension_spec in K. congruence. }
      apply extension_spec in X.
      assert (NH : ex <> lit "html" -> ~ has_ext name (lit "html")) by (intros Ne K; apply Ne; now apply (has_ext_unique name)).
      destruct (text_eqb ex (lit "html")) eqn:E1; [apply text_eqb_eq in E1; subst ex|].
      { destruct (text_cases b) as [(t & -> & T)|[-> T]]; cbn [ok_or bind]; [|discriminate].
        destruct (parse_html _ _ _ _) eqn:E; cbn [map_err bind]; try discriminate. intros Y; injection Y as <-. apply fine_one.
        split; [|now exists t]. eapply parsed_scalars; [exact Fns| |exact E]. now apply (decoded_scalars b). }
      apply text_eqb_neq in E1. specialize (NH E1).
      destruct (text_eqb ex (lit "md")) eqn:E2; [apply text_eqb_eq in E2; subst ex|].
      { destruct (text_cases b) as [(t & -> & T)|[-> T]]; cbn [ok_or bind]; [|discriminate]. apply decoded_scalars in T.
        destruct (front_cases (h_ext h) (fns ps) p t) as [(x & _ & ->)|(fm & body & M & ->)]; cbn [map_err bind]; [discriminate|].
        unfold md_result. destruct (parse_html _ _ _ _) eqn:E; cbn [map_err bind]; try discriminate. intros Y; injection Y as <-. apply fine_one.
        destruct (parts_scalars _ _ _ M T) as [S1 S2]. split; [|exact NH]. split; [eapply parsed_scalars; [exact Fns| |exact E]; exact S2|]. now split. }
      destruct (text_eqb ex (lit "json")) eqn:E3.
      { destruct (from_utf8 b) as [t|]; cbn [ok_or bind]; [|discriminate]. destruct (h_json h t) as [v|] eqn:J; cbn [ok_or bind]; [|discriminate].
        intros Y; injection Y as <-. apply fine_one. split; [|exact NH]. now apply Host in J. }
      assert (C := find_charge ps ex). destruct (find_node_parser ex ps) as [np|]; cbn [bind]; [destruct (npa_parse np b p) as [|cu] eqn:P; cbn [bind]; [discriminate|]|];
        intros Y; injection Y as <-; apply fine_one; [|exact NH]. split; [exact NH|]. intros e o nm Q1 Q2 Q3.
      apply (Parsers np) with (p := p) (c := cu) (e := e) (name := nm); try assumption.
      destruct C as (l1 & l2 & C & _). rewrite C. apply in_elt.
    - destruct (map_res _ l) as [ch| | |] eqn:M; cbn [bind]; try discriminate. intros E; injection E as <-. apply fine_dir.
      apply map_res_ok in M. clear -IH M. induction M as [|[k x] c l ch H M IHM]; constructor; inversion IH; subst.
      + cbn [fst snd] in *. eauto.
      + now apply IHM.
  Qed.
  Lemma preprocess_fine pr i b0 : pr_host pr = h -> pr_input pr = Some i -> pr_base pr = Some b0 -> scalar_site i -> scalar_frame b0 ->
    forall n n', fine n -> preprocess pr n = Ok n' -> fine n'.
  Proof.
    intros Hh Hi Hb Si Sb. induction n as [name b p meta src|name ch src IH] using node_ind2; intros n' G; cbn [preprocess].
    - assert (F := G _ (in_here _)). destruct p; try (intros E; injection E as <-; exact G).
      destruct (preprocess_markdown pr src m) as [m'| | |] eqn:Q; cbn [map_err bind]; try discriminate. intros E; injection E as <-.
      apply fine_one. destruct F as [[F1 F2] F0].
      assert (B := fun s f r => body_utf8 pr i b0 Hi Hb (eq_ind_r scalar_host Host Hh) Si Sb src m s f r F1).
      assert (Q' := Q). unfold preprocess_markdown in Q'. rewrite Hb in Q'. destruct (phase _ _ _ _) as [s| | |] eqn:Ph; cbn [bind] in Q'; try discriminate.
      destruct (sc_stack s) as [|f0 r] eqn:St; [discriminate|]. destruct (is_base f0) eqn:Ba; [|discriminate].
      destruct (B _ _ _ eq_refl St (proj1 (text_eqb_eq _ _) Ba)) as (t & U & E). rewrite E in Q. injection Q as <-. split; [|exact F0]. split; [exact F1|]. destruct F2 as (F2 & F3 & _).
      split; [exact F2|]. split; [exact F3|]. rewrite Hh. apply Host. now apply (decoded_scalars (fr_out f0)).
    - destruct (map_res _ ch) as [ch'| | |] eqn:M; cbn [bind]; try discriminate. intros E; injection E as <-. apply map_res_ok in M.
      apply fine_dir. assert (GC : Forall fine ch). { apply Forall_forall. intros c Ic f If. apply G. now apply (in_child _ _ _ _ c). }
      clear G. induction M as [|c c' ch ch' H M IHM]; constructor; inversion IH; inversion GC; subst; auto.
  Qed.

  Lemma mirror_back (R : list (list node) -> node -> node -> Prop) : (forall anc f g, R anc f g -> is_file g = true) -> forall n anc0 out, mirror R anc0 n out -> forall g, inside g out -> is_file g = true ->
    exists anc f, found n anc f /\ R (anc ++ anc0) f g.
  Proof.
    intros RF. induction n as [name b p meta src|name ch src IH] using node_ind2; intros anc0 out M g I F; inversion M as [? ? ? ? ? ? ? Ro|? ? ? ? ch' Ch]; subst.
    - assert (Fo := RF _ _ _ Ro). destruct out; [|discriminate]. inversion I; subst. exists [], (NFile name b p meta src). split; [constructor|exact Ro].
    - inversion I as [|? ? ? ? c Ic If]; subst; [discriminate F|]. destruct (Forall2_in_r _ _ _ _ Ch Ic) as (x & Ix & Mx).
      rewrite Forall_forall in IH. destruct (IH _ Ix _ _ Mx _ If F) as (anc & f & Fo & Ro). exists (anc ++ [ch]), f. split; [econstructor; eassumption|].
      rewrite <- app_assoc. exact Ro.
  Qed.
  Lemma found_levels n anc f : found n anc f -> inside f n /\ forall ch c, In ch anc -> In c ch -> inside c n.
  Proof.
    induction 1 as [n|name ch src c anc n Ic Fo [IH1 IH2]]; [split; [constructor|intros ? ? []]|]. split; [now apply (in_child _ _ _ _ c)|].
    intros ch' c' I1 I2. apply in_app_iff in I1. destruct I1 as [I1|[<-|[]]]; [apply (in_child _ _ _ _ c); eauto|]. apply (in_child _ _ _ _ c'); [exact I2|constructor].
  Qed.
  Lemma template_in t anc r : template_of t anc (Some r) -> exists ch n, In ch anc /\ In n ch /\ html_of n = Some r.
  Proof.
    remember (Some r) as o eqn:Eo. induction 1 as [|ch ds n I N|ch ds o N T IH]; [discriminate| |].
    - exists ch, n. split; [now left|]. now split.
    - destruct (IH Eo) as (ch' & n & I & K). exists ch', n. split; [now right|exact K].
  Qed.
End Encoded.

Lemma build_encoded h osenv mode d st out : scalar_host h -> scalar_plugins (st_plugins st) ->
  (forall np, In np (flat_map pl_parsers (st_plugins st)) -> html_parser np) ->
  Forall (fun kv => scalars (snd kv)) osenv -> scalars mode ->
  snd (build h osenv mode d st) = Ok tt -> st_output (fst (build h osenv mode d st)) = Some out ->
  forall name b p meta src, inside (NFile name b p meta src) out -> has_ext name (lit "html") -> utf8 b.
Proof.
  intros Ho Fn Pa Se Sm. unfold build. destruct (node_new _ _ _ _ _ _) as [input|y|q|] eqn:N; cbn [snd]; try discriminate.
  set (vars := build_vars osenv mode). destruct (preprocess _ input) as [input'|y|q|] eqn:P; cbn [snd]; try discriminate.
  destruct (build_tree _ _ _ _) as [[i o]|y|q|] eqn:T; cbn [snd fst st_output]; try discriminate. intros _ E; injection E as ->.
  destruct (sd_ent d) as [[b0|l|]|]; cbn [node_new] in N; try discriminate.
  assert (Base : scalar_frame (base_frame vars)).
  { split; [|apply utf8_nil]. cbn. constructor; [|constructor]. cbn [snd]. constructor. apply Forall_map. unfold vars, build_vars. apply Forall_app. split.
    - revert Se. apply Forall_impl. intros kv S. now constructor.
    - constructor; [now constructor|constructor]. }
  assert (F := create_fine _ _ Ho Fn Pa _ _ _ _ N). assert (F' := fun H1 H2 H3 => preprocess_fine h Ho _ _ _ H1 H2 H3 (fine_site _ F) Base _ _ F P).
  specialize (F' eq_refl eq_refl eq_refl).
  assert (M : mirror (publishes (build_pr h (cf_meta (st_config st)) vars input') vars) [] input' out).
  { unfold build_tree in T. fold (build_pr h (cf_meta (st_config st)) vars input) in T. unfold build_pr in T at 1. rewrite P in T. cbn [bind] in T.
    destruct input' as [|nm ch src]; [discriminate|]. cbn [n_children] in T.
    match goal with H : bind ?x _ = _ |- _ => destruct x as [o2|x'|q|] eqn:B end; cbn [bind] in T; try discriminate. injection T as <- <-. now apply build_top in B. }
  intros name b p meta src I X.
  destruct (mirror_back (publishes (build_pr h (cf_meta (st_config st)) vars input') vars)) with (n := input') (anc0 := @nil (list node)) (out := out) (g := NFile name b p meta src)
    as (anc & f & Fo & Pu); try assumption; [intros ? ? ? Q; inversion Q; reflexivity|reflexivity|]. rewrite app_nil_r in Pu.
  destruct (found_levels _ _ _ Fo) as [If Lv]. assert (Ff := F' _ If).
  assert (TM : forall t r, template_of t anc (Some r) -> Forall scalar_token r).
  { intros t r Q. apply template_in in Q. destruct Q as (ch & n & I1 & I2 & H). specialize (F' _ (Lv _ _ I1 I2)).
    destruct n as [nn bn pn mn sn|]; [|discriminate]. destruct pn; try discriminate. injection H as <-. apply F'. }
  inversion Pu; subst.
  - eapply (page_utf8 (build_pr h (cf_meta (st_config st)) vars input') input' (base_frame vars) eq_refl eq_refl Ho (fine_site _ F') Base); [| | |eassumption|eassumption].
    + match goal with H : page_of _ _ |- _ => inversion H; subst end; cbn [page_tokens ev_md]; [apply Ff|]. destruct md as [t|]; [eapply TM; eassumption|constructor].
    + unfold root_tokens. cbn [ev_root]. destruct root as [t|]; [eapply TM; eassumption|constructor].
    + match goal with H : page_of _ _ |- _ => inversion H; subst end; [exact Logic.I|apply Ff].
  - destruct Ff as [Ff1 Ff2]. destruct (po_name o) as [nm|] eqn:No; [|contradiction]. eapply Ff2; eassumption.
  - destruct p0; cbn [fine_file] in Ff; try (exfalso; tauto). apply Ff.
Qed.
