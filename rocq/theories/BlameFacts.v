(** BlameFacts.v -- what the error of a build refers to (C84). *)

From Coq Require Import String List NArith ZArith Bool Lia.
From Verif Require Import Text TextFacts Utf8 Json Base Syntax Parse Tree Interp Build SpecChars SpecScope SpecPage SpecTemplate SpecLocation
  SpecMarkdown SpecGrammar SpecTree SpecSite SpecReads SpecBlame.
From Verif Require Import Utf8Facts ParseInv InterpFacts TotalFacts TreeFacts BuildTotal MarkdownFacts GrammarFacts SiteFacts LocalFacts ReadsFacts.
Import ListNotations.

(** ** Paths through a tree *)
Lemma found_spine n anc f : found n anc f -> forall anc0, exists ks, spine n anc0 ks (anc ++ anc0) f.
Proof.
  induction 1 as [n|name ch src c anc n I H IH]; intros anc0; [exists []; constructor|].
  destruct (IH (ch :: anc0)) as [ks S]. exists (n_name c :: ks). econstructor; [exact I|]. rewrite <- app_assoc. exact S.
Qed.
Lemma inside_spine m n : inside m n -> forall anc0, exists ks anc, spine n anc0 ks anc m.
Proof.
  induction 1 as [n|m name ch src c I H IH]; intros anc0; [exists [], anc0; constructor|].
  destruct (IH (ch :: anc0)) as (ks & anc & S). exists (n_name c :: ks), anc. econstructor; eassumption.
Qed.
Lemma spine_inside n anc0 ks anc f : spine n anc0 ks anc f -> inside f n.
Proof. induction 1 as [n anc|name ch src c ks anc anc' f I H IH]; [constructor|econstructor; eassumption]. Qed.
Lemma spine_levels n anc0 ks anc f : spine n anc0 ks anc f -> exists new, anc = new ++ anc0 /\ length new = length ks /\
  forall a1 ch a2, new = a1 ++ ch :: a2 -> exists nm src, spine n anc0 (firstn (length a2) ks) (a2 ++ anc0) (NDir nm ch src).
Proof.
  induction 1 as [n anc|name ch src c ks anc anc' f I H IH].
  - exists []. split; [reflexivity|]. split; [reflexivity|]. intros [|? ?] ? ? E; discriminate.
  - destruct IH as (new & -> & L & K). exists (new ++ [ch]). split; [now rewrite <- app_assoc|]. split; [rewrite app_length; cbn; lia|].
    intros a1 ch1 a2 E. destruct a2 as [|x a2 _] using rev_ind.
    + apply app_inj_tail in E as [_ <-]. cbn [length firstn]. exists name, src. constructor.
    + change (a1 ++ ch1 :: a2 ++ [x]) with (a1 ++ (ch1 :: a2) ++ [x]) in E. rewrite app_assoc in E. apply app_inj_tail in E as [E <-].
      destruct (K _ _ _ E) as (nm & s & S). exists nm, s. rewrite app_length. cbn [length]. rewrite Nat.add_1_r. cbn [firstn].
      econstructor; [exact I|]. rewrite <- app_assoc. exact S.
Qed.
Lemma template_split name anc r : template_of name anc r ->
  (r = None /\ Forall (fun ch => ~ In name (map n_name ch)) anc) \/
  exists a1 ch a2 n, anc = a1 ++ ch :: a2 /\ Forall (fun ch => ~ In name (map n_name ch)) a1 /\ In n ch /\ n_name n = name /\ r = html_of n.
Proof.
  induction 1 as [|ch ds n I N|ch ds t N T IH]; [left; now split|right; exists [], ch, ds, n; now repeat split|].
  destruct IH as [[-> F]|(a1 & ch1 & a2 & n & -> & F & I & E & ->)]; [left; split; [reflexivity|now constructor]|].
  right. exists (ch :: a1), ch1, a2, n. repeat split; auto.
Qed.

Section Blame.
  Variable h : host.
  Variable ps : list plugin.
  Variable p : path.
  Variable nm : text.
  Variable e : ent.
  Hypothesis Dist : ent_distinct e.
  Variable input : node.
  Hypothesis Load : create_from h ps true p nm e = Ok input.

  (** Tokens of a file. *)
  Lemma blame_file ks body toks x : tagged_text e ks body -> parse_html (h_ext h) (fns ps) (p ++ ks) body = Ok toks -> blamed toks x ->
    at_tag h ps p e ks x.
  Proof.
    intros T P (k & I & M & E). destruct k as [k loc]. cbn [t_inner t_loc] in *.
    assert (K : is_tag k). { destruct k as [r|v|f]; [|exact Logic.I..]. destruct (tb_kind x); cbn in M; repeat match goal with
      | H : exists _, _ |- _ => destruct H | H : _ \/ _ |- _ => destruct H | H : _ /\ _ |- _ => destruct H end; try discriminate; contradiction. }
    destruct (located_tags _ _ _ _ _ (parse_html_located _ _ _ _ _ P) _ _ I K) as (before & TA & L).
    exists body, (map t_inner toks), k, before. split; [exact T|]. split; [apply (parse_means _ _ (p ++ ks)); eauto|].
    split; [now apply (in_map t_inner) in I|]. split; [exact TA|]. split; [exact M|]. rewrite E, L. reflexivity.
  Qed.
  Lemma file_tokens name b ks dirs n0 : ks = dirs ++ [name] -> ent_at e ks (EFile b) -> create_from_file h ps true (p ++ ks) name b = Ok n0 ->
    match n_parsed n0 with
    | PHtml t => has_ext name (lit "html") /\ exists body, tagged_text e ks body /\ parse_html (h_ext h) (fns ps) (p ++ ks) body = Ok t
    | PMarkdown m => has_ext name (lit "md") /\ exists body, tagged_text e ks body /\ parse_html (h_ext h) (fns ps) (p ++ ks) body = Ok (md_tokens m)
    | PCustom c => exists ext np, has_ext name ext /\ ~ In ext parsed_exts /\ in_charge ps ext np /\ npa_parse np b (p ++ ks) = inr c
    | _ => True
    end.
  Proof.
    intros K A. unfold create_from_file. destruct (extension name) as [ex|] eqn:X; cbn [bind].
    2: { intros E; injection E as <-. exact I. }
    apply extension_spec in X.
    destruct (text_eqb ex (lit "html")) eqn:E1; [apply text_eqb_eq in E1; subst ex|].
    { destruct (text_cases b) as [(t & -> & T)|[-> T]]; cbn [ok_or bind]; [|discriminate].
      destruct (parse_html _ _ _ _) eqn:E; cbn [map_err bind]; try discriminate. intros Y; injection Y as <-. cbn [n_parsed].
      split; [exact X|]. exists t. split; [|exact E]. exists dirs, name, b, t. auto 6. }
    destruct (text_eqb ex (lit "md")) eqn:E2; [apply text_eqb_eq in E2; subst ex|].
    { destruct (text_cases b) as [(t & -> & T)|[-> T]]; cbn [ok_or bind]; [|discriminate].
      destruct (front_cases (h_ext h) (fns ps) (p ++ ks) t) as [(x & _ & ->)|(fm & body & M & ->)]; cbn [map_err bind]; [discriminate|].
      unfold md_result. destruct (parse_html _ _ _ _) eqn:E; cbn [map_err bind]; try discriminate. intros Y; injection Y as <-. cbn [n_parsed md_tokens].
      split; [exact X|]. exists body. split; [|exact E]. exists dirs, name, b, t. eauto 8. }
    destruct (text_eqb ex (lit "json")) eqn:E3.
    { destruct (from_utf8 b) as [t|]; cbn [ok_or bind]; [|discriminate]. destruct (h_json h t); cbn [ok_or bind]; [|discriminate].
      intros Y; injection Y as <-. exact I. }
    assert (C := find_charge ps ex). destruct (find_node_parser ex ps) as [np|]; cbn [bind]; [destruct (npa_parse np b (p ++ ks)) eqn:P; cbn [bind]; [discriminate|]|];
      intros Y; injection Y as <-; [|exact I]. cbn [n_parsed]. exists ex, np. repeat split; auto. now apply not_parsed.
  Qed.

  (** The same after preprocessing. *)
  Lemma ready_tokens pr input' ks dirs name anc f : preprocess pr input = Ok input' -> ks = dirs ++ [name] -> spine input' [] ks anc f -> is_file f = true ->
    exists b, ent_at e ks (EFile b) /\ n_source f = p ++ ks /\ n_name f = name /\
    match n_parsed f with
    | PHtml t => has_ext name (lit "html") /\ exists body, tagged_text e ks body /\ parse_html (h_ext h) (fns ps) (p ++ ks) body = Ok t
    | PMarkdown m => has_ext name (lit "md") /\ exists body, tagged_text e ks body /\ parse_html (h_ext h) (fns ps) (p ++ ks) body = Ok (md_tokens m)
    | PCustom c => exists ext np, has_ext name ext /\ ~ In ext parsed_exts /\ in_charge ps ext np /\ npa_parse np b (p ++ ks) = inr c
    | _ => ~ has_ext name (lit "html")
    end.
  Proof.
    intros P K S F. destruct (loaded_at h ps pr _ _ _ _ _ S F _ _ _ _ Load P) as (b & n0 & A & C & Q).
    assert (L : last ks nm = name) by (rewrite K; apply last_last). rewrite L in C. exists b. split; [exact A|].
    assert (T := file_tokens _ _ _ _ _ K A C). destruct (create_file_kind _ _ _ _ _ _ C) as (pc & -> & EK). cbn [n_parsed preprocess] in *.
    assert (NH : forall ex, has_ext name ex -> ex <> lit "html" -> ~ has_ext name (lit "html")).
    { intros ex X1 X2 X3. apply X2. eapply has_ext_unique; eassumption. }
    destruct pc as [t|m|v|c| |].
    - injection Q as <-. now repeat split.
    - destruct (preprocess_markdown pr (p ++ ks) m) as [m'| | |] eqn:M; cbn [map_err bind] in Q; try discriminate. injection Q as <-.
      cbn [n_source n_name n_parsed]. split; [reflexivity|]. split; [reflexivity|].
      assert (E : md_tokens m' = md_tokens m).
      { unfold preprocess_markdown in M. destruct (pr_base pr); [|discriminate]. destruct (phase _ _ _ _) as [s| | |]; cbn [bind] in M; try discriminate.
        destruct (sc_stack s) as [|f0 r]; [discriminate|]. destruct (is_base f0); [|discriminate]. destruct (from_utf8 _); [|discriminate]. now injection M as <-. }
      rewrite E. exact T.
    - injection Q as <-. cbn [n_source n_name n_parsed]. split; [reflexivity|]. split; [reflexivity|].
      destruct EK as [[X [t ?]]|[[X (m & ? & _)]|[[X _]|[(ex & np & c & _ & _ & _ & _ & _ & _ & ?)|[? N]]]]]; try discriminate.
      now apply (NH _ X).
    - injection Q as <-. now repeat split.
    - injection Q as <-. cbn [n_source n_name n_parsed]. split; [reflexivity|]. split; [reflexivity|].
      destruct EK as [[X [t ?]]|[[X (m & ? & _)]|[[X [v ?]]|[(ex & np & c & _ & _ & _ & _ & _ & _ & ?)|[? N]]]]]; try discriminate.
      intros X. now apply N in X.
    - injection Q as <-. cbn [n_source n_name n_parsed]. split; [reflexivity|]. split; [reflexivity|].
      destruct EK as [[X [t ?]]|[[X (m & ? & _)]|[[X [v ?]]|[(ex & np & c & _ & _ & _ & _ & _ & _ & ?)|[? N]]]]]; try discriminate.

  Qed.

  Section Ready.
    Variable pr0 : processor.
    Variable input' : node.
    Hypothesis Ready : preprocess pr0 input = Ok input'.
    Let St : stands (ready_as h ps pr0) nm e input'.
    Proof. eapply preprocess_stands; [eapply create_stands; exact Load|exact Ready]. Qed.
    Let D : distinct input'.
    Proof. eapply stands_distinct; eassumption. Qed.

    (** The directories around a file. *)
    Lemma level_in ks anc f a1 ch a2 c : spine input' [] ks anc f -> anc = a1 ++ ch :: a2 -> In c ch ->
      exists anc', spine input' [] (firstn (length a2) ks ++ [n_name c]) anc' c.
    Proof.
      intros S E I. destruct (spine_levels _ _ _ _ _ S) as (new & En & _ & K). rewrite app_nil_r in En. subst new.
      destruct (K _ _ _ E) as (n1 & s1 & S1). eexists. eapply spine_app; [exact S1|]. econstructor; [exact I|constructor].
    Qed.
    Lemma level_ent ks anc f a1 ch a2 k x : spine input' [] ks anc f -> anc = a1 ++ ch :: a2 -> ent_at e (firstn (length a2) ks ++ [k]) x ->
      exists c, In c ch /\ n_name c = k /\ stands (ready_as h ps pr0) k x c.
    Proof.
      intros S E A. destruct (spine_levels _ _ _ _ _ S) as (new & En & _ & K). rewrite app_nil_r in En. subst new.
      destruct (K _ _ _ E) as (n1 & s1 & S1). destruct (ent_at_dir _ _ _ _ A) as (l & A1 & I1).
      destruct (stands_dir _ _ _ _ A1 _ _ [] St) as (anc2 & n2 & ch2 & s2 & S2 & F).
      destruct (spine_unique _ _ _ _ _ S1 D _ _ S2) as [_ X]. injection X as _ <- _.
      destruct (Forall2_in_l _ _ _ _ F I1) as (c & Ic & Sc). cbn [fst snd] in Sc. exists c. split; [exact Ic|]. split; [|exact Sc].
      now apply stands_name in Sc.
    Qed.
    Lemma template_lacking t dirs name anc f : t = lit "root.html" \/ t = lit "md.html" -> spine input' [] (dirs ++ [name]) anc f ->
      template_of t anc None -> lacking e t dirs.
    Proof.
      intros Ht Sp T ks1 ks2 b -> A.
      destruct (spine_levels _ _ _ _ _ Sp) as (new & En & Ln & _). rewrite app_nil_r in En. subst new.
      assert (Lv : exists a1 ch a2, anc = a1 ++ ch :: a2 /\ length a2 = length ks1).
      { rewrite !app_length in Ln. cbn [length] in Ln. exists (firstn (length anc - S (length ks1)) anc).
        assert (Lk : length (skipn (length anc - S (length ks1)) anc) = S (length ks1)) by (rewrite skipn_length; lia).
        destruct (skipn (length anc - S (length ks1)) anc) as [|ch a2] eqn:Sk; [discriminate|]. exists ch, a2. split; [|cbn in Lk; lia].
        rewrite <- Sk. symmetry. apply firstn_skipn. }
      destruct Lv as (b1 & chi & b2 & Ei & Li).
      assert (Fi : firstn (length b2) ((ks1 ++ ks2) ++ [name]) = ks1) by (rewrite Li, <- app_assoc, firstn_app, Nat.sub_diag, firstn_all; cbn; now rewrite app_nil_r).
      assert (Ai : ent_at e (firstn (length b2) ((ks1 ++ ks2) ++ [name]) ++ [t]) (EFile b)) by (rewrite Fi; exact A).
      destruct (level_ent _ _ _ _ _ _ _ _ Sp Ei Ai) as (ci & Ii & Ni & Si).
      apply template_split in T. destruct T as [[_ F]|(a1 & chj & a2 & n & Ej & F & Ij & Nj & Hj)].
      { exfalso. rewrite Forall_forall in F. apply (F chi); [rewrite Ei; apply in_elt|]. rewrite <- Ni. now apply in_map. }
      destruct (level_in _ _ _ _ _ _ _ Sp Ej Ij) as [ancj Sj]. destruct (spine_stands _ _ _ _ _ _ Sj _ _ St) as (nj & xj & Axj & Sxj).
      assert (Xj : exists l, xj = EDir l).
      { inversion Sxj as [? bj ? R Nn Fn|? l ? ? _]; subst; [|eauto]. exfalso.
        destruct (ready_tokens _ _ _ _ _ _ _ Ready eq_refl Sj Fn) as (bj' & _ & _ & _ & M).
        assert (X : has_ext (n_name n) (lit "html")) by (destruct Ht as [Ht|Ht]; rewrite Ht; apply extension_spec; reflexivity).
        destruct n as [nn bn pn mn sn|]; [|discriminate Fn]. cbn [n_parsed html_of n_name] in *. destruct pn; try contradiction; try discriminate.
        - destruct M as [M _]. apply (has_ext_unique _ _ _ X) in M. discriminate.
        - destruct M as (ex & np & M1 & M2 & _). apply (has_ext_unique _ _ _ X) in M1. subst ex. apply M2. now left. }
      destruct Xj as [l ->]. rewrite Nj in Axj.
      assert (La : length anc = length b1 + S (length b2) /\ length anc = length a1 + S (length a2)).
      { split; [rewrite Ei|rewrite Ej]; rewrite app_length; reflexivity. }
      destruct (Nat.lt_trichotomy (length b2) (length a2)) as [Lt|[Eq|Gt]].
      - assert (Lb : (length a2 <= length (ks1 ++ ks2))%nat).
        { rewrite app_length in Ln. cbn in Ln. lia. }
        rewrite firstn_app in Axj. replace (length a2 - length (ks1 ++ ks2))%nat with O in Axj by lia. cbn [firstn] in Axj. rewrite app_nil_r in Axj.
        rewrite firstn_app, firstn_all2 in Axj by lia.
        exists (firstn (length a2 - length ks1) ks2), (skipn (length a2 - length ks1) ks2), l.
        split; [symmetry; apply firstn_skipn|]. split.
        + intros E0. apply (f_equal (@length _)) in E0. rewrite firstn_length in E0. rewrite app_length in Lb. cbn in E0. lia.
        + rewrite <- app_assoc in Axj. exact Axj.
      - exfalso. rewrite <- Eq, Fi in Axj. assert (Y := ent_unique _ _ _ A Dist _ Axj). discriminate.
      - exfalso. assert (I1 : In chi a1).
        { rewrite Ei in Ej. clear - Ej Gt. revert b1 Ej. induction a1 as [|y a1 IH]; intros b1 Ej.
          - exfalso. apply (f_equal (@length _)) in Ej. rewrite !app_length in Ej. cbn in Ej. lia.
          - destruct b1 as [|z b1]; cbn in Ej; injection Ej as -> Ej; [now left|right; eauto]. }
        rewrite Forall_forall in F. apply (F chi I1). rewrite <- Ni. now apply in_map.
    Qed.
    Lemma template_tokens t dirs name anc f toks : spine input' [] (dirs ++ [name]) anc f -> template_of t anc (Some toks) ->
      exists ks1 ks2 body, dirs = ks1 ++ ks2 /\ tagged_text e (ks1 ++ [t]) body /\ parse_html (h_ext h) (fns ps) (p ++ ks1 ++ [t]) body = Ok toks.
    Proof.
      intros S T. apply template_split in T. destruct T as [[T _]|(a1 & ch & a2 & n & E & _ & I & N & H)]; [discriminate|].
      destruct (level_in _ _ _ _ _ _ _ S E I) as [anc' Sn]. destruct n as [nn bn pn mn sn|]; [|discriminate]. destruct pn as [t'| | | | |]; try discriminate.
      cbn [html_of] in H. injection H as <-.
      destruct (ready_tokens _ _ _ _ _ _ _ Ready eq_refl Sn eq_refl) as (b & _ & _ & _ & _ & body & M1 & M2). cbn [n_name] in *. subst nn.
      destruct (spine_levels _ _ _ _ _ S) as (new & En & Ln & _). rewrite app_nil_r in En. subst new.
      assert (La : (length a2 <= length dirs)%nat). { rewrite E, !app_length in Ln. cbn in Ln. lia. }
      rewrite firstn_app in M1, M2. replace (length a2 - length dirs)%nat with O in * by lia. cbn [firstn] in M1, M2. rewrite app_nil_r in M1, M2.
      exists (firstn (length a2) dirs), (skipn (length a2) dirs), body. split; [symmetry; apply firstn_skipn|]. now split.
    Qed.
  End Ready.
End Blame.

Lemma inside_file h ps e : forall p name n f, create_from h ps true p name e = Ok n -> inside f n -> is_file f = true ->
  (f = n /\ exists b, e = EFile b /\ create_from_file h ps true p name b = Ok f) \/
  exists dirs k b, ent_at e (dirs ++ [k]) (EFile b) /\ create_from_file h ps true (p ++ dirs ++ [k]) k b = Ok f.
Proof.
  induction e as [b| |l IH] using ent_ind2; intros p name n f; cbn [create_from]; try discriminate.
  - intros C I F. destruct (create_file_kind _ _ _ _ _ _ C) as (pc & -> & _). inversion I; subst. left. split; [reflexivity|]. eauto.
  - destruct (map_res _ l) as [ch| | |] eqn:M; cbn [bind]; try discriminate. intros E; injection E as <-. intros I F.
    inversion I as [|? ? ? ? c Ic If]; subst; [discriminate F|]. apply map_res_ok in M. destruct (Forall2_in_r _ _ _ _ M Ic) as ((k & x) & Ik & Cx).
    cbn [fst snd] in Cx. rewrite Forall_forall in IH. right. destruct (IH _ Ik _ _ _ _ Cx If F) as [[-> (b & E & Cb)]|(dirs & k' & b & A & Cb)]; cbn [snd] in *.
    + subst x. exists [], k, b. split; [econstructor; [exact Ik|constructor]|exact Cb].
    + exists (k :: dirs), k', b. split; [cbn [app]; econstructor; eassumption|]. rewrite <- app_assoc in Cb. exact Cb.
Qed.

Lemma build_blames h osenv mode d st x : (forall e, sd_ent d = Some e -> ent_distinct e) -> plugins_give plugin_ok (st_plugins st) ->
  snd (build h osenv mode d st) = Err x ->
  ((forall l, sd_ent d <> Some (EDir l)) /\ x = E_Fs (FE_NotFound (sd_path d))) \/
  exists l, sd_ent d = Some (EDir l) /\
    (stops h (st_plugins st) (sd_path d) (sd_name d) (EDir l) (Some x) \/ file_fault h (st_plugins st) (sd_path d) (EDir l) x).
Proof.
  intros D G. unfold build. destruct (node_new _ _ _ _ _ _) as [input|y|q|] eqn:N; cbn [snd]; try discriminate.
  2: { intros E; injection E as ->. destruct (sd_ent d) as [[b|l|]|]; cbn [node_new] in N; try (left; split; [discriminate|congruence]).
       right. exists l. split; [reflexivity|]. left. now apply error_first. }
  set (vars := build_vars osenv mode). intros B.
  destruct (sd_ent d) as [[b|l|]|]; cbn [node_new] in N; try discriminate. right. exists l. split; [reflexivity|]. right.
  specialize (D _ eq_refl). assert (TG := create_good _ _ _ _ G _ _ _ N). set (ps := st_plugins st) in *.
  assert (NC : ~ In c_colon (fr_name (base_frame vars))) by (cbn; intuition discriminate).
  assert (PP : forall name b m me src y, inside (NFile name b (PMarkdown m) me src) input ->
    preprocess_markdown (build_pr h (cf_meta (st_config st)) vars input) src m = Err y -> file_fault h ps (sd_path d) (EDir l) (E_Process y)).
  { intros name b m me src y I Q. assert (If := TG _ I). cbn [file_good] in If. destruct If as [If _].
    destruct (inside_file _ _ _ _ _ _ _ N I eq_refl) as [[_ (b1 & E & _)]|(dirs & k & b1 & A & C)]; [discriminate|].
    assert (K := file_tokens _ _ _ _ _ _ _ _ _ eq_refl A C). destruct (create_file_kind _ _ _ _ _ _ C) as (pc & E & _). injection E as -> -> <- -> ->.
    cbn [n_parsed] in K. destruct K as (HX & body & K1 & K2).
    apply (ff_page _ _ _ _ dirs k b1); [exact A|now right|].
    unfold preprocess_markdown in Q. cbn [pr_base build_pr] in Q. destruct (phase _ _ _ _) as [s|z|q|] eqn:Ph; cbn [bind] in Q; try discriminate.
    + assert (Y : y = TB (sd_path d ++ dirs ++ [k]) 0 0 XE_StackError).
      { destruct (sc_stack s) as [|f0 r]; [congruence|]. destruct (is_base f0); [|congruence]. destruct (from_utf8 _); [discriminate|congruence]. }
      subst y. apply pf_stack.
    + injection Q as ->. apply pf_own. eapply blame_file; [exact K1|exact K2|]. unfold phase in Ph. cbn [pr_input build_pr] in Ph.
      eapply (run_blames (World _ _ _)); [|exact NC|exact Ph]. exact If. }
  destruct (preprocess _ input) as [input'|y|q|] eqn:P; cbn [snd] in B; try discriminate.
  - destruct (preprocess_good _ _ _ _ TG P) as [TG' _].
    destruct (build_tree _ _ _ _) as [[i o]|y|q|] eqn:T; cbn [snd] in B; try discriminate. injection B as ->.
    apply tree_fails in T. destruct T as [(name & b & m & me & src & y & I & Q & ->)|(i2 & anc & f & P2 & Fo & Fa)].
    { eapply PP; eassumption. }
    unfold build_pr in P2. rewrite P in P2. injection P2 as <-.
    destruct (found_spine _ _ _ Fo []) as [ks S]. rewrite app_nil_r in S.
    assert (Ff : is_file f = true). { destruct Fa as [f pg root md y Pg _ _ _|]; [inversion Pg; reflexivity|reflexivity]. }
    assert (KS : exists dirs name, ks = dirs ++ [name]).
    { destruct ks as [|k ks0 _] using rev_ind; [|eauto]. exfalso. inversion S; subst.
      cbn [create_from] in N. destruct (map_res _ l); cbn [bind] in N; try discriminate. injection N as <-. cbn [preprocess] in P.
      destruct (map_res _ a); cbn [bind] in P; try discriminate. injection P as <-. discriminate Ff. }
    destruct KS as (dirs & name & ->).
    destruct (ready_tokens _ _ _ _ _ _ N _ _ _ _ _ _ _ P eq_refl S Ff) as (b & A & Sf & Nf & K).
    assert (TM : forall t r, template_of t anc (Some r) -> forall z, blamed r z -> exists ks1 ks2, dirs = ks1 ++ ks2 /\ at_tag h ps (sd_path d) (EDir l) (ks1 ++ [t]) z).
    { intros t r T z Bz. destruct (template_tokens _ _ _ _ _ _ N _ _ P _ _ _ _ _ _ S T) as (ks1 & ks2 & body & E1 & E2 & E3).
      exists ks1, ks2. split; [exact E1|]. eapply blame_file; eassumption. }
    assert (TP : forall t r, template_of t anc (Some r) -> plugins_of plugin_ok r).
    { intros t r T. apply template_split in T. destruct T as [[T _]|(a1 & ch & a2 & n & E & _ & I & _ & H)]; [discriminate|].
      destruct (level_in _ _ _ _ _ _ _ _ S E I) as [anc' Sn]. apply spine_inside in Sn. apply TG' in Sn.
      destruct n as [nn bn pn mn sn|]; [|discriminate]. destruct pn; try discriminate. cbn in H. injection H as <-. exact Sn. }
    assert (If := spine_inside _ _ _ _ _ S). apply TG' in If.
    destruct Fa as [f pg root md y Pg R M Re|nm0 b0 c0 me0 src0 root md m0 Nt R M Np].
    + assert (HE : has_ext name (lit "html") \/ has_ext name (lit "md")).
      { inversion Pg; subst; cbn [n_parsed] in K; destruct K; auto. }
      assert (Q1 : plugins_of plugin_ok (page_tokens (Env vars root md) pg)).
      { inversion Pg; subst; cbn [page_tokens ev_md]; [exact If|]. destruct md as [t|]; [eapply TP; eassumption|intros ? ? []]. }
      assert (Q2 : plugins_of plugin_ok (root_tokens (Env vars root md))).
      { unfold root_tokens. cbn [ev_root]. destruct root as [t|]; [eapply TP; eassumption|intros ? ? []]. }
      apply (ff_page _ _ _ _ dirs name b); [exact A|exact HE|].
      destruct (page_blames (build_pr h (cf_meta (st_config st)) vars input') _ _ _ _ _ _ eq_refl eq_refl NC Q1 Q2 Re) as [Bl|[Bl|(k & Pe & ->)]].
      * inversion Pg; subst; cbn [page_tokens ev_md n_parsed n_name] in *.
        -- apply pf_own. destruct K as (_ & body & K1 & K2). eapply blame_file; eassumption.
        -- destruct md as [t|]; [|destruct Bl as (? & [] & _)]. destruct (TM _ _ M _ Bl) as (ks1 & ks2 & E1 & E2).
           eapply pf_template; [exact E1| |exact E2]. right. split; [reflexivity|apply K].
      * unfold root_tokens in Bl. cbn [ev_root] in Bl. destruct root as [t|]; [|destruct Bl as (? & [] & _)].
        destruct (TM _ _ R _ Bl) as (ks1 & ks2 & E1 & E2). eapply pf_template; [exact E1| |exact E2]. now left.
      * rewrite Sf. destruct k; try contradiction; cbn [page_error ev_root ev_md] in Pe.
        -- apply pf_root. subst root. eapply template_lacking; try eassumption. now left.
        -- destruct Pe as [-> (n1 & m1 & ->)]. inversion Pg; subst. cbn [n_parsed n_name] in *. apply pf_md; [apply K|].
           eapply template_lacking; try eassumption. now right.
        -- apply pf_stack.
    + cbn [n_parsed n_source] in *. destruct K as (ext & np & K1 & K2 & K3 & K4). subst.
      eapply ff_plugin; eassumption.
  - injection B as ->. apply preprocess_fails in P. destruct P as (name & b & m & me & src & y & I & Q & ->). eapply PP; eassumption.
Qed.
