(** ReadsFacts.v -- loading a directory of sources (C83, C36). *)

From Coq Require Import String List NArith ZArith Bool Lia.
From Verif Require Import Text TextFacts Utf8 Json Base Syntax Parse Tree Interp Build SpecScope SpecPage SpecChars SpecTemplate SpecLocation SpecMarkdown SpecGrammar
  SpecBreak SpecTree SpecSite SpecReads.
From Verif Require Import Utf8Facts ParseInv ParseLoc MarkdownFacts GrammarFacts BreakFacts TotalFacts TreeFacts BuildTotal.
Import ListNotations.

Lemma front_cases ext plugins file t : (exists x, bad_front file t x /\ parse_markdown ext plugins file t = Err x) \/
  exists fm body, md_parts t fm body /\ parse_markdown ext plugins file t = md_result ext plugins file fm body.
Proof.
  destruct (opens_dec t) as [Ho|Ho].
  - destruct (markdown_cases t Ho) as (fs & kvs & H1 & H2 & [HT|[(d & body & Hd & HT)|(bad & rest & Hb & Hp & HT)]]).
    + left. eexists. split; [eapply bf_open; eassumption|exact (markdown_unclosed ext plugins file t _ fs kvs Ho HT eq_refl H1 H2)].
    + right. exists kvs, (with_lf body). split; [|exact (markdown_front ext plugins file t _ fs kvs d body Ho HT eq_refl H1 H2 Hd)].
      right. split; [exact Ho|]. exists fs, d, body. repeat split; assumption.
    + left. eexists. split; [eapply bf_line; eassumption|exact (markdown_bad_line ext plugins file t _ fs kvs bad rest Ho HT eq_refl H1 H2 Hb Hp)].
  - pose proof (lines_spec t) as HL. right. exists [], (with_lf (lines t)). split; [|exact (markdown_none ext plugins file t _ Ho HL)].
    left. split; [exact Ho|]. split; [reflexivity|]. now exists (lines t).
Qed.
Lemma parts_parse ext plugins file t fm body : md_parts t fm body -> parse_markdown ext plugins file t = md_result ext plugins file fm body.
Proof.
  intros [(Ho & -> & ls & HL & ->)|(Ho & fs & d & ls & HT & H1 & H2 & Hd & ->)].
  - exact (markdown_none ext plugins file t _ Ho HL).
  - exact (markdown_front ext plugins file t _ fs fm d ls Ho HT eq_refl H1 H2 Hd).
Qed.
Lemma html_cases ext plugins file t :
  (exists ks toks, SpecGrammar.means ext plugins t ks /\ parse_html ext plugins file t = Ok toks) \/
  (exists x, malformed ext plugins file t x /\ parse_html ext plugins file t = Err x) \/
  (exists q, breaks ext plugins t /\ parse_html ext plugins file t = Panic q).
Proof.
  destruct (parse_html ext plugins file t) as [toks|x|q|] eqn:E.
  - left. exists (map t_inner toks), toks. split; auto. apply (parse_means ext plugins file). eauto.
  - right. left. exists x. split; auto. now apply parse_html_err.
  - right. right. exists q. split; auto. apply (panics_exactly ext plugins file). eauto.
  - exfalso. destruct (parse_html_total ext plugins file t) as [[toks A]|[[e A]|[[q A] _]]]; congruence.
Qed.
Lemma find_charge ps e : match find_node_parser e ps with Some np => in_charge ps e np
  | None => forall np, In np (flat_map pl_parsers ps) -> ~ In e (npa_exts np) end.
Proof.
  unfold find_node_parser, in_charge. induction (flat_map pl_parsers ps) as [|q l IH]; cbn [find]; [now intros ? []|].
  assert (X : existsb (text_eqb e) (npa_exts q) = true <-> In e (npa_exts q)).
  { rewrite existsb_exists. split; [intros (x & A & B); apply text_eqb_eq in B; now subst|intros A; exists e; split; auto; now apply text_eqb_eq]. }
  destruct (existsb _ _).
  - exists [], l. repeat split; auto. now apply X.
  - assert (N : ~ In e (npa_exts q)) by (intros A; apply X in A; discriminate).
    destruct (find _ l) as [np|].
    + destruct IH as (a & b & -> & A & F). exists (q :: a), b. repeat split; auto.
    + intros np [<-|A]; auto.
Qed.
Lemma text_cases b : (exists t, from_utf8 b = Some t /\ utf8_text b t) \/ (from_utf8 b = None /\ forall t, ~ utf8_text b t).
Proof.
  destruct (from_utf8 b) as [t|] eqn:E; [left; exists t; split; auto; now apply decoding|right; split; auto].
  intros t A. apply decoding in A. congruence.
Qed.

Lemma not_parsed e : text_eqb e (lit "html") = false -> text_eqb e (lit "md") = false -> text_eqb e (lit "json") = false -> ~ In e parsed_exts.
Proof. intros A B C [<-|[<-|[<-|[]]]]; now rewrite text_eqb_refl in *. Qed.
Lemma ext_one name e e' : has_ext name e -> has_ext name e' -> e = e'.
Proof. intros A B. apply extension_spec in A, B. congruence. Qed.

Section Reads.
  Variable h : host.
  Variable ps : list plugin.

  Lemma file_cases p name b :
    (sound h ps p name b /\ exists n, create_from_file h ps true p name b = Ok n) \/
    (exists x, faulty h ps p name b x /\ create_from_file h ps true p name b = Err x) \/
    (breaking h ps name b /\ exists q, create_from_file h ps true p name b = Panic q).
  Proof.
    unfold create_from_file. destruct (extension name) as [e|] eqn:X.
    2: { left. split; [|eexists; reflexivity]. apply so_plain. intros e A. apply extension_spec in A. congruence. }
    apply extension_spec in X.
    destruct (text_eqb e (lit "html")) eqn:E1; [apply text_eqb_eq in E1; subst e|].
    { destruct (text_cases b) as [(t & -> & T)|[-> T]]; cbn [ok_or bind].
      2: { right. left. eexists. split; [eapply fa_text; eauto; now left|reflexivity]. }
      destruct (html_cases (h_ext h) (fns ps) p t) as [(ks & toks & M & ->)|[(x & M & ->)|(q & M & ->)]]; cbn [map_err bind].
      - left. split; [eapply so_html; eauto|eauto].
      - right. left. eexists. split; [eapply fa_html; eauto|reflexivity].
      - right. right. split; [eapply bk_html; eauto|eauto]. }
    destruct (text_eqb e (lit "md")) eqn:E2; [apply text_eqb_eq in E2; subst e|].
    { destruct (text_cases b) as [(t & -> & T)|[-> T]]; cbn [ok_or bind].
      2: { right. left. eexists. split; [eapply fa_text; eauto; right; now left|reflexivity]. }
      destruct (front_cases (h_ext h) (fns ps) p t) as [(x & M & ->)|(fm & body & M & ->)]; cbn [map_err bind].
      { right. left. eexists. split; [eapply fa_front; eauto|reflexivity]. }
      unfold md_result. destruct (html_cases (h_ext h) (fns ps) p body) as [(ks & toks & M' & ->)|[(x & M' & ->)|(q & M' & ->)]]; cbn [map_err bind].
      - left. split; [eapply so_md; eauto|eauto].
      - right. left. eexists. split; [eapply fa_body; eauto|reflexivity].
      - right. right. split; [eapply bk_md; eauto|eauto]. }
    destruct (text_eqb e (lit "json")) eqn:E3; [apply text_eqb_eq in E3; subst e|].
    { destruct (text_cases b) as [(t & -> & T)|[-> T]]; cbn [ok_or bind].
      2: { right. left. eexists. split; [eapply fa_text; eauto; right; right; now left|reflexivity]. }
      destruct (h_json h t) as [v|] eqn:J; cbn [ok_or bind].
      - left. split; [eapply so_json; eauto|eauto].
      - right. left. eexists. split; [eapply fa_json; eauto|reflexivity]. }
    assert (N := not_parsed _ E1 E2 E3). assert (C := find_charge ps e).
    destruct (find_node_parser e ps) as [np|]; cbn [bind].
    - destruct (npa_parse np b p) as [m|c] eqn:P; cbn [bind].
      + right. left. eexists. split; [eapply fa_plugin; eauto|reflexivity].
      + left. split; [eapply so_plugin; eauto|eauto].
    - left. split; [|eauto]. apply so_plain. intros e' A. rewrite <- (ext_one _ _ _ X A). now split.
  Qed.
  Lemma sound_reads p name b : sound h ps p name b -> exists n, create_from_file h ps true p name b = Ok n.
  Proof.
    unfold create_from_file. intros [t ks X T M|t fm body ks X T M1 M2|t v X T M|e np c X N C M|N].
    - apply extension_spec in X. apply decoding in T. rewrite X, T. cbn [ok_or bind]. rewrite text_eqb_refl.
      apply (parse_means _ _ p) in M as (toks & E & _). change (map (fun p => (pl_name p, pl_fns p)) ps) with (fns ps) in E. rewrite E. cbn. eauto.
    - apply extension_spec in X. apply decoding in T. rewrite X, T. cbn [ok_or bind]. change (text_eqb (lit "md") (lit "html")) with false.
      change (text_eqb (lit "md") (lit "md")) with true. cbn iota. rewrite (parts_parse _ _ p _ _ _ M1). unfold md_result.
      apply (parse_means _ _ p) in M2 as (toks & E & _). change (map (fun p => (pl_name p, pl_fns p)) ps) with (fns ps) in E. rewrite E. cbn. eauto.
    - apply extension_spec in X. apply decoding in T. rewrite X, T. cbn [ok_or bind]. change (text_eqb (lit "json") (lit "html")) with false.
      change (text_eqb (lit "json") (lit "md")) with false. change (text_eqb (lit "json") (lit "json")) with true. cbn iota. rewrite M. cbn. eauto.
    - apply extension_spec in X. rewrite X. cbn [ok_or bind].
      assert (Q : forall k, In k parsed_exts -> text_eqb e k = false) by (intros k A; apply text_eqb_neq; intros ->; auto).
      rewrite !Q by (cbn; auto). assert (F : find_node_parser e ps = Some np).
      { destruct C as (a & d & E & I & F). unfold find_node_parser. rewrite E. clear E. induction a as [|q a IH]; cbn [app find].
        - rewrite (proj2 (existsb_exists _ _)); auto. exists e. split; auto. apply text_eqb_refl.
        - inversion F; subst. destruct (existsb (text_eqb e) (npa_exts q)) eqn:Y; auto. apply existsb_exists in Y as (k & A & B).
          apply text_eqb_eq in B. subst. contradiction. }
      rewrite F, M. cbn. eauto.
    - destruct (extension name) as [e|] eqn:X; [|cbn; eauto]. apply extension_spec in X. destruct (N _ X) as [N1 N2].
      assert (Q : forall k, In k parsed_exts -> text_eqb e k = false) by (intros k A; apply text_eqb_neq; intros ->; auto).
      rewrite !Q by (cbn; auto). assert (C := find_charge ps e). destruct (find_node_parser e ps) as [np|]; [|cbn; eauto].
      exfalso. destruct C as (a & d & E & I & _). apply (N2 np); auto. rewrite E. apply in_elt.
  Qed.
  Lemma tree_cases e : forall p name,
    (sound_tree h ps p name e /\ exists n, create_from h ps true p name e = Ok n) \/
    (exists x, stops h ps p name e (Some x) /\ create_from h ps true p name e = Err x) \/
    (stops h ps p name e None /\ exists q, create_from h ps true p name e = Panic q).
  Proof.
    induction e as [b| |l IH] using ent_ind2; intros p name; cbn [create_from].
    - destruct (file_cases p name b) as [[A B]|[(x & A & B)|[A B]]].
      + left. split; [now constructor|exact B].
      + right. left. exists x. split; [|exact B]. constructor; auto. intros S. apply sound_reads in S as [n S]. congruence.
      + right. right. split; [now constructor|exact B].
    - right. left. eexists. split; [constructor|reflexivity].
    - assert (A : (Forall (fun e => sound_tree h ps (p ++ [fst e]) (fst e) (snd e)) l /\
          exists ch, map_res (fun ne => create_from h ps true (p ++ [fst ne]) (fst ne) (snd ne)) l = Ok ch) \/
        (exists l1 k e l2, l = l1 ++ (k, e) :: l2 /\ Forall (fun e => sound_tree h ps (p ++ [fst e]) (fst e) (snd e)) l1 /\
          ((exists x, stops h ps (p ++ [k]) k e (Some x) /\ map_res (fun ne => create_from h ps true (p ++ [fst ne]) (fst ne) (snd ne)) l = Err x) \/
           (stops h ps (p ++ [k]) k e None /\ exists q, map_res (fun ne => create_from h ps true (p ++ [fst ne]) (fst ne) (snd ne)) l = Panic q)))).
      { induction l as [|[k e] l IHl]; cbn [map_res]; [left; split; eauto|]. inversion IH as [|? ? I1 I2]; subst. cbn [fst snd] in *.
        destruct (I1 (p ++ [k]) k) as [[A [n B]]|[(x & A & B)|[A [q B]]]]; rewrite B; cbn [bind].
        - destruct (IHl I2) as [[A' [ch B']]|(l1 & k' & e' & l2 & -> & F & [(x & S & B')|[S [q B']]])]; rewrite B'; cbn [bind].
          + left. split; [now constructor|eauto].
          + right. exists ((k, e) :: l1), k', e', l2. split; [reflexivity|]. split; [now constructor|]. left. eauto.
          + right. exists ((k, e) :: l1), k', e', l2. split; [reflexivity|]. split; [now constructor|]. right. eauto.
        - right. exists [], k, e, l. split; [reflexivity|]. split; [constructor|]. left. eauto.
        - right. exists [], k, e, l. split; [reflexivity|]. split; [constructor|]. right. eauto. }
      destruct A as [[F [ch B]]|(l1 & k & e & l2 & El & F & [(x & S & B)|[S [q B]]])]; rewrite B; cbn [bind].
      + left. split; [now constructor|eauto].
      + right. left. exists x. split; [|reflexivity]. rewrite El. now constructor.
      + right. right. split; [|eauto]. rewrite El. now constructor.
  Qed.

  Lemma breaking_panics p name b : breaking h ps name b -> exists q, create_from_file h ps true p name b = Panic q.
  Proof.
    unfold create_from_file. intros [t X T M|t fm body X T M1 M2].
    - apply extension_spec in X. apply decoding in T. rewrite X, T. cbn [ok_or bind]. rewrite text_eqb_refl.
      apply (panics_exactly _ _ p) in M as (q & E). change (map (fun p => (pl_name p, pl_fns p)) ps) with (fns ps) in E. rewrite E. cbn. eauto.
    - apply extension_spec in X. apply decoding in T. rewrite X, T. cbn [ok_or bind]. change (text_eqb (lit "md") (lit "html")) with false.
      change (text_eqb (lit "md") (lit "md")) with true. cbn iota. rewrite (parts_parse _ _ p _ _ _ M1). unfold md_result.
      apply (panics_exactly _ _ p) in M2 as (q & E). change (map (fun p => (pl_name p, pl_fns p)) ps) with (fns ps) in E. rewrite E. cbn. eauto.
  Qed.
  Lemma sound_loads e : forall p name, sound_tree h ps p name e -> exists n, create_from h ps true p name e = Ok n.
  Proof.
    induction e as [b| |l IH] using ent_ind2; intros p name S; inversion S as [? ? ? A|? ? ? F]; subst; cbn [create_from].
    - now apply sound_reads.
    - assert (A : exists ch, map_res (fun ne => create_from h ps true (p ++ [fst ne]) (fst ne) (snd ne)) l = Ok ch).
      { clear S. induction l as [|[k e] l IHl]; cbn [map_res]; [eauto|]. inversion IH; inversion F; subst. cbn [fst snd] in *.
        destruct (H1 (p ++ [k]) k H5) as [n ->]. cbn [bind]. destruct (IHl H2 H6) as [ch ->]. cbn [bind]. eauto. }
      destruct A as [ch ->]. cbn [bind]. eauto.
  Qed.
  Lemma stops_panics e : forall p name, stops h ps p name e None -> exists q, create_from h ps true p name e = Panic q.
  Proof.
    induction e as [b| |l IH] using ent_ind2; intros p name S; inversion S as [|? ? ? A| |? ? l1 k e l2 ? F A]; subst; cbn [create_from].
    - now apply breaking_panics.
    - assert (B : exists q, map_res (fun ne => create_from h ps true (p ++ [fst ne]) (fst ne) (snd ne)) (l1 ++ (k, e) :: l2) = Panic q).
      { apply Forall_app in IH as [_ IH]. inversion IH as [|? ? I1 _]; subst. cbn [fst snd] in I1. destruct (I1 _ _ A) as [q B].
        clear S IH I1. induction l1 as [|[k' e'] l1 IHl]; cbn [map_res app fst snd]; [rewrite B; cbn [bind]; eauto|].
        inversion F as [|? ? F1 F2]; subst. cbn [fst snd] in F1. destruct (sound_loads _ _ _ F1) as [n ->]. cbn [bind].
        destruct (IHl F2) as [q' ->]. cbn [bind]. eauto. }
      destruct B as [q ->]. cbn [bind]. eauto.
  Qed.

  Lemma loads_exactly p name e : (exists n, node_new h ps true p name e = Ok n) <-> exists l, e = Some (EDir l) /\ sound_tree h ps p name (EDir l).
  Proof.
    unfold node_new. split.
    - intros [n N]. destruct e as [[|l|]|]; try discriminate. exists l. split; auto.
      destruct (tree_cases (EDir l) p name) as [[A _]|[(x & _ & B)|[_ [q B]]]]; auto; congruence.
    - intros (l & -> & S). now apply sound_loads.
  Qed.
  Lemma panics_first p name e : (exists q, node_new h ps true p name e = Panic q) <-> exists l, e = Some (EDir l) /\ stops h ps p name (EDir l) None.
  Proof.
    unfold node_new. split.
    - intros [q N]. destruct e as [[|l|]|]; try discriminate. exists l. split; auto.
      destruct (tree_cases (EDir l) p name) as [[_ [n B]]|[(x & _ & B)|[A _]]]; auto; congruence.
    - intros (l & -> & S). now apply stops_panics.
  Qed.
  Lemma error_first p name l x : node_new h ps true p name (Some (EDir l)) = Err x -> stops h ps p name (EDir l) (Some x).
  Proof.
    unfold node_new. intros N. destruct (tree_cases (EDir l) p name) as [[_ [n B]]|[(y & A & B)|[_ [q B]]]]; congruence.
  Qed.
  Lemma some_outcome p name l : sound_tree h ps p name (EDir l) \/ (exists r, stops h ps p name (EDir l) r).
  Proof. destruct (tree_cases (EDir l) p name) as [[A _]|[(y & A & B)|[A _]]]; eauto. Qed.

  Lemma sound_inside e : forall p name ks k b, sound_tree h ps p name e -> ent_at e (ks ++ [k]) (EFile b) -> sound h ps (p ++ ks ++ [k]) k b.
  Proof.
    induction e as [b'| |l IH] using ent_ind2; intros p name ks k b S A.
    - inversion A as [? E1 E2|]. now destruct ks.
    - inversion S.
    - inversion S as [|? ? ? F]; subst. destruct ks as [|k' ks]; inversion A as [|? ? e ? ? J A']; subst.
      + inversion A'; subst. rewrite Forall_forall in F. specialize (F _ J). cbn [fst snd app] in *. now inversion F.
      + rewrite Forall_forall in IH, F. specialize (F _ J). cbn [fst snd] in F. assert (R := IH _ J _ _ _ _ _ F A'). cbn [snd] in R.
        change (p ++ (k' :: ks) ++ [k]) with (p ++ [k'] ++ ks ++ [k]). now rewrite app_assoc.
  Qed.
  Lemma sound_not_breaking p name b : sound h ps p name b -> ~ breaking h ps name b.
  Proof. intros S B. apply sound_reads in S as [n S]. apply (breaking_panics p) in B as [q B]. congruence. Qed.
  Lemma none_break e : forall p name, (forall b, e = EFile b -> ~ breaking h ps name b) ->
    (forall ks k b, ent_at e (ks ++ [k]) (EFile b) -> ~ breaking h ps k b) -> ~ stops h ps p name e None.
  Proof.
    induction e as [b| |l IH] using ent_ind2; intros p name N1 N2 S; inversion S as [|? ? ? A| |? ? l1 k e l2 ? F A]; subst.
    - now apply (N1 b).
    - apply Forall_app in IH as [_ IH]. inversion IH as [|? ? I1 _]; subst. cbn [fst snd] in I1. revert A. apply I1.
      + intros b ->. apply (N2 [] k b). econstructor; [apply in_elt|constructor].
      + intros ks k' b A. apply (N2 (k :: ks) k' b). cbn [app]. econstructor; [apply in_elt|exact A].
  Qed.
End Reads.

Lemma build_ends_well h osenv mode d st : plugins_give (fun p => plugin_ok p /\ plugin_total p) (st_plugins st) ->
  (forall e ks k b, sd_ent d = Some e -> ent_at e (ks ++ [k]) (EFile b) -> ~ breaking h (st_plugins st) k b) ->
  (forall input, node_new h (st_plugins st) true (sd_path d) (sd_name d) (sd_ent d) = Ok input -> bodies_ready input) ->
  match snd (build h osenv mode d st) with Ok _ | Err _ => True | _ => False end.
Proof.
  intros G N B. apply build_total; auto. unfold node_new. destruct (sd_ent d) as [[|l|]|] eqn:E; try exact I.
  destruct (tree_cases h (st_plugins st) (EDir l) (sd_path d) (sd_name d)) as [[_ [n ->]]|[(x & _ & ->)|[S _]]]; try exact I.
  exfalso. revert S. apply none_break; [discriminate|]. intros ks k b. now apply N.
Qed.
Lemma build_sound h osenv mode d st : snd (build h osenv mode d st) = Ok tt ->
  exists l, sd_ent d = Some (EDir l) /\ sound_tree h (st_plugins st) (sd_path d) (sd_name d) (EDir l).
Proof.
  intros B. apply loads_exactly. unfold build in B. destruct (node_new _ _ _ _ _ _) as [n| | |]; try discriminate. eauto.
Qed.
Lemma build_breaks h osenv mode d st e ks k b : sd_ent d = Some e -> ent_at e (ks ++ [k]) (EFile b) -> breaking h (st_plugins st) k b ->
  snd (build h osenv mode d st) <> Ok tt.
Proof.
  intros E A K B. apply build_sound in B as (l & E' & S). rewrite E in E'. injection E' as ->.
  apply (sound_inside _ _ _ _ _ _ _ _ S) in A. now apply sound_not_breaking in A.
Qed.
Lemma build_panics_first h osenv mode d st l : sd_ent d = Some (EDir l) -> stops h (st_plugins st) (sd_path d) (sd_name d) (EDir l) None ->
  exists q, build h osenv mode d st = (st, Panic q).
Proof.
  intros E S. unfold build. assert (N := proj2 (panics_first h (st_plugins st) (sd_path d) (sd_name d) (sd_ent d)) (ex_intro _ l (conj E S))).
  destruct N as [q ->]. eauto.
Qed.
Lemma build_error_first h osenv mode d st l : sd_ent d = Some (EDir l) -> ~ sound_tree h (st_plugins st) (sd_path d) (sd_name d) (EDir l) ->
  exists r, stops h (st_plugins st) (sd_path d) (sd_name d) (EDir l) r /\
    match r with Some x => build h osenv mode d st = (st, Err x) | None => exists q, build h osenv mode d st = (st, Panic q) end.
Proof.
  intros E N. unfold build. rewrite E. cbn [node_new].
  destruct (tree_cases h (st_plugins st) (EDir l) (sd_path d) (sd_name d)) as [[S _]|[(x & S & ->)|[S [q ->]]]]; [contradiction|exists (Some x)|exists None]; eauto.
Qed.
