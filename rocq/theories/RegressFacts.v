(** RegressFacts.v -- which files can be to blame after one file has been changed (C97). *)

From Coq Require Import String List NArith ZArith Bool Lia.
From Verif Require Import Text TextFacts Utf8 Json Base Syntax Parse Tree Interp Build SpecChars SpecScope SpecPage SpecTemplate SpecLocation
  SpecMarkdown SpecGrammar SpecTree SpecSite SpecReads SpecBlame SpecLocal SpecNeeds SpecRegress.
From Verif Require Import Utf8Facts ParseInv InterpFacts TotalFacts ScopeFacts TreeFacts BuildTotal PathFacts MarkdownFacts GrammarFacts SiteFacts
  ViewFacts LocalFacts ReadsFacts BlameFacts NeedsFacts.
Import ListNotations.

(** ** Reading *)
Lemma sound_no_stop h ps e : forall p nm r, sound_tree h ps p nm e -> ~ stops h ps p nm e r.
Proof.
  induction e as [b| |l IH] using ent_ind2; intros p nm r S T.
  - inversion S as [? ? ? Sd|]; subst. inversion T as [? ? ? ? N _|? ? ? B| |]; subst; [contradiction|]. now apply (sound_not_breaking _ _ _ _ _ Sd).
  - inversion S.
  - inversion S as [|? ? ? F]; subst. inversion T as [| | |? ? l1 k e l2 ? F1 T1]; subst. rewrite Forall_forall in IH, F.
    apply (IH (k, e) (in_elt _ _ _) _ _ _ (F _ (in_elt _ _ _)) T1).
Qed.
Lemma elt_in {A} (a b : list A) x l : a ++ x :: b = l -> In x l.
Proof. intros <-. apply in_elt. Qed.
Lemma changed_stops h ps qs qn e e' : changed qs qn e e' -> forall p nm r, sound_tree h ps p nm e -> stops h ps p nm e' r ->
  exists b, ent_at e' (qs ++ [qn]) (EFile b) /\ stops h ps (p ++ qs ++ [qn]) qn (EFile b) r.
Proof.
  induction 1 as [name o o' l1 l2 N|k qs name e e' l1 l2 Ed IH]; intros p nm r S T; inversion S as [|? ? ? F]; subst; rewrite Forall_forall in F;
    inversion T as [| | |? ? a j x c ? F1 T1]; subst; match goal with H : a ++ _ = _ |- _ => rename H into E2 end.
  - pose proof (elt_in _ _ _ _ E2) as J. apply in_app_or in J. destruct J as [J|J]; [|apply in_app_or in J; destruct J as [J|J]].
    + exfalso. eapply (sound_no_stop h ps x); [|exact T1]. apply (F (j, x)). apply in_or_app. now left.
    + destruct o' as [b|]; cbn [maybe_file] in J; [|destruct J]. destruct J as [J|[]]. injection J as <- <-. exists b. split; [|exact T1].
      econstructor; [apply in_or_app; right; now left|constructor].
    + exfalso. eapply (sound_no_stop h ps x); [|exact T1]. apply (F (j, x)). apply in_or_app. right. apply in_or_app. now right.
  - pose proof (elt_in _ _ _ _ E2) as J. apply in_app_or in J. destruct J as [J|[J|J]].
    + exfalso. eapply (sound_no_stop h ps x); [|exact T1]. apply (F (j, x)). apply in_or_app. now left.
    + injection J as <- <-. destruct (IH _ _ _ (F (k, e) (in_elt _ _ _)) T1) as (b & A & T2). exists b. split; [econstructor; [apply in_elt|exact A]|].
      rewrite <- app_assoc in T2. exact T2.
    + exfalso. eapply (sound_no_stop h ps x); [|exact T1]. apply (F (j, x)). apply in_or_app. right. now right.
Qed.

(** ** Files that do not come out *)
Definition ill_body (h : host) (ps : list plugin) (vars : list (text * text)) (p : path) (meta : bool) (e : ent) (i : node) (ks : list text) (name : text) : Prop :=
  exists b n0, ent_at e (ks ++ [name]) (EFile b) /\ create_from_file h ps true (p ++ ks ++ [name]) name b = Ok n0 /\
    forall n1, preprocess (build_pr h meta vars i) n0 <> Ok n1.
Definition ill_page (h : host) (vars : list (text * text)) (meta : bool) (i : node) (ks : list text) (name : text) : Prop :=
  exists i1 anc f e1, preprocess (build_pr h meta vars i) i = Ok i1 /\ spine i1 [] (ks ++ [name]) anc f /\ is_file f = true /\ in_force vars anc e1 /\
    forall o, build_node (build_pr h meta vars i1) e1 f <> Ok o.

Lemma preprocess_stuck pr n : (forall n1, preprocess pr n <> Ok n1) -> exists f, inside f n /\ is_file f = true /\ forall n1, preprocess pr f <> Ok n1.
Proof.
  induction n as [name b p meta src|name ch src IH] using node_ind2; intros N; [eexists; split; [constructor|]; split; [reflexivity|exact N]|].
  cbn [preprocess] in N. destruct (map_res _ ch) as [ch'|y|q|] eqn:M; cbn [bind] in N; [now destruct (N _ eq_refl)| | |];
    (destruct (map_res_fail _ _ _ M) as (a & c & l & -> & Nc & _); [discriminate|]; rewrite Forall_forall in IH;
     destruct (IH c (in_elt _ _ _) Nc) as (f & I & F & K); exists f; split; [econstructor; [apply in_elt|exact I]|now split]).
Qed.
Lemma build_stuck pr vars n : forall anc e, in_force vars anc e -> (forall o, build_node pr e n <> Ok o) ->
  exists ks anc' f e1, spine n anc ks anc' f /\ is_file f = true /\ in_force vars anc' e1 /\ forall o, build_node pr e1 f <> Ok o.
Proof.
  induction n as [name b p meta src|name ch src IH] using node_ind2; intros anc e F N.
  - exists [], anc, (NFile name b p meta src), e. split; [constructor|]. split; [reflexivity|]. split; [exact F|exact N].
  - cbn [build_node] in N. destruct (map_res _ ch) as [ch'|y|q|] eqn:M; cbn [bind] in N; [now destruct (N _ eq_refl)| | |];
    (destruct (map_res_fail _ _ _ M) as (a & c & l & -> & Nc & _); [discriminate|]; rewrite Forall_forall in IH;
     destruct (IH c (in_elt _ _ _) (_ :: anc) _ (in_force_update _ _ _ _ F) Nc) as (ks & anc' & f & e1 & S & K); exists (n_name c :: ks), anc', f, e1;
     split; [econstructor; [apply in_elt|exact S]|exact K]).
Qed.
Lemma inside_dirs h ps l p nm i f : create_from h ps true p nm (EDir l) = Ok i -> inside f i -> is_file f = true ->
  exists dirs k b, ent_at (EDir l) (dirs ++ [k]) (EFile b) /\ create_from_file h ps true (p ++ dirs ++ [k]) k b = Ok f.
Proof. intros C I F. destruct (inside_file _ _ _ _ _ _ _ C I F) as [[_ (b & E & _)]|R]; [discriminate|exact R]. Qed.
Lemma below_dirs h ps pr l p nm i i1 ks anc f : create_from h ps true p nm (EDir l) = Ok i -> preprocess pr i = Ok i1 -> spine i1 [] ks anc f -> is_file f = true ->
  exists dirs name, ks = dirs ++ [name].
Proof.
  intros N P S F. destruct ks as [|k ks0 _] using rev_ind; [|eauto]. exfalso. inversion S; subst.
  cbn [create_from] in N. destruct (map_res _ l); cbn [bind] in N; try discriminate. injection N as <-. cbn [preprocess] in P.
  destruct (map_res _ a); cbn [bind] in P; try discriminate. injection P as <-. discriminate F.
Qed.
Lemma build_ill h osenv mode d st l i : sd_ent d = Some (EDir l) -> create_from h (st_plugins st) true (sd_path d) (sd_name d) (EDir l) = Ok i ->
  snd (build h osenv mode d st) <> Ok tt ->
  exists ks name, ill_body h (st_plugins st) (build_vars osenv mode) (sd_path d) (cf_meta (st_config st)) (EDir l) i ks name \/
    ill_page h (build_vars osenv mode) (cf_meta (st_config st)) i ks name.
Proof.
  intros E C B. unfold build in B. rewrite E in B. unfold node_new in B. rewrite C in B. cbv zeta in B. set (vars := build_vars osenv mode) in *.
  set (meta := cf_meta (st_config st)) in *. fold (build_pr h meta vars i) in B.
  assert (D : (forall n1, preprocess (build_pr h meta vars i) i <> Ok n1) \/ exists i1, preprocess (build_pr h meta vars i) i = Ok i1).
  { destruct (preprocess (build_pr h meta vars i) i); [right; eauto|left; discriminate..]. }
  destruct D as [N|[i1 P]].
  - destruct (preprocess_stuck _ _ N) as (f & I & F & K). destruct (inside_dirs _ _ _ _ _ _ _ C I F) as (dirs & k & b & A & Cf).
    exists dirs, k. left. exists b, f. split; [exact A|]. now split.
  - rewrite P in B. unfold build_tree in B. fold (build_pr h meta vars i) in B. rewrite P in B. cbn [bind] in B. fold (build_pr h meta vars i1) in B.
    assert (Di : exists nm ch src, i1 = NDir nm ch src).
    { cbn [create_from] in C. destruct (map_res _ l); cbn [bind] in C; try discriminate. injection C as <-. cbn [preprocess] in P. destruct (map_res _ a); cbn [bind] in P; try discriminate. injection P as <-. eauto. }
    destruct Di as (nm & ch & src & ->). cbn [n_children] in B.
    assert (N : forall o, build_node (build_pr h meta vars (NDir nm ch src)) (env_update (Env vars None None) ch) (NDir nm ch src) <> Ok o).
    { intros o Bo. rewrite Bo in B. cbn [bind snd] in B. now apply B. }
    assert (F0 : forall c, in_force vars [c] (env_update (env_update (Env vars None None) c) c)).
    { intros c. apply in_force_again, in_force_update. repeat split; constructor. }
    cbn [build_node] in N. destruct (map_res _ ch) as [ch'|y|q|] eqn:M; cbn [bind] in N; [now destruct (N _ eq_refl)| | |];
    (destruct (map_res_fail _ _ _ M) as (a & c & l' & -> & Nc & _); [discriminate|];
     destruct (build_stuck _ vars c [a ++ c :: l'] _ (F0 _) Nc) as (ks & anc' & f & e1 & S & F & K);
     assert (S' : spine (NDir nm (a ++ c :: l') src) [] (n_name c :: ks) anc' f) by (econstructor; [apply in_elt|exact S]);
     destruct (below_dirs _ _ _ _ _ _ _ _ _ _ _ C P S' F) as (dirs & name & Ek); rewrite Ek in S'; exists dirs, name; right;
     exists (NDir nm (a ++ c :: l') src), anc', f, e1; split; [exact P|]; split; [exact S'|]; split; [exact F|exact K]).
Qed.

(** ** Files that depend on nothing that has changed *)
Section Kept.
  Variables (h : host) (ps : list plugin) (vars : list (text * text)) (p : path) (nm : text).
  Variables (meta meta' : bool) (e e' : ent) (i i1 i' : node) (ks : list text) (name : text) (b : bytes).
  Hypothesis S : site_of h ps vars p nm meta e i i1.
  Hypothesis De' : ent_distinct e'.
  Hypothesis Di' : exists l, e' = EDir l.
  Hypothesis C' : create_from h ps true p nm e' = Ok i'.
  Hypothesis A : ent_at e (ks ++ [name]) (EFile b).
  Hypothesis A' : ent_at e' (ks ++ [name]) (EFile b).
  Hypothesis T : same_around e e' ks.
  Let N := needs h ps e ks name.
  Hypothesis Same : forall s qs, N s -> path_of s qs -> same_there e e' qs.
  Lemma kept_body : ~ ill_body h ps vars p meta' e' i' ks name.
  Proof.
    intros (b' & n0 & B & Cf & K). pose proof (ent_unique _ _ _ A' De' _ B) as X. injection X as <-.
    destruct S as (De & _ & C & P). destruct (walk_create _ _ _ _ _ A De _ _ _ C) as (m & W & Cm). cbn [create_from] in Cm. rewrite last_last in Cm.
    assert (m = n0) as -> by congruence.
    pose proof (walk_preprocess _ (ks ++ [name]) _ _ P) as Q. rewrite W in Q. destruct (walk i1 (ks ++ [name])) as [m1|]; [|contradiction].
    pose proof (loaded_view h ps vars p nm N meta meta' e e' i i' C C' De' Same) as V.
    destruct (file_asks h ps e p ks name b n0 N A Cm (fun s => ne_own _ _ _ _ _ s)) as [_ Am].
    destruct (create_file_kind _ _ _ _ _ _ Cm) as (pc & -> & _). cbn [preprocess n_parsed] in *. destruct pc; try now destruct (K _ eq_refl).
    destruct (preprocess_markdown (build_pr h meta vars i) _ m) as [m2| | |] eqn:E; cbn [map_err bind] in Q; try discriminate.
    rewrite (body_view _ _ _ _ _ _ V (Am _ eq_refl) E) in K. cbn [map_err bind] in K. now destruct (K _ eq_refl).
  Qed.
  Variables (rn : text) (ch : list node) (src : path) (ch1 : list node).
  Hypothesis I1 : i1 = NDir rn ch src.
  Hypothesis M : map_res (build_node (build_pr h meta vars i1) (env_update (env_update (Env vars None None) ch) ch)) ch = Ok ch1.
  Lemma kept_page : ~ ill_page h vars meta' i' ks name.
  Proof.
    intros (i1' & anc' & f & e1' & P' & Spc' & Ff & Fo' & K).
    assert (S' : site_of h ps vars p nm meta' e' i' i1') by (repeat split; assumption).
    assert (Closed : forall s qs q s2, N s -> path_of s qs -> has_ext q (lit "md") -> asks_for h ps e (qs ++ [q]) s2 -> N s2).
    { intros s qs q s2 Ns Pq X Q. exact (ne_post _ _ _ _ _ _ _ _ _ Ns Pq X Q). }
    destruct (site_facts _ _ _ _ _ _ _ _ _ S) as (Di & D1 & Ki & K1 & St). destruct (site_facts _ _ _ _ _ _ _ _ _ S') as (Dd' & D1' & Ki' & K1' & St').
    assert (F0 : forall c, in_force vars [c] (env_update (env_update (Env vars None None) c) c)).
    { intros c. apply in_force_again, in_force_update. repeat split; constructor. }
    destruct (stands_at _ _ _ _ A nm i1 [] St) as (anc0 & f0 & k0 & Spc & Sf0).
    destruct (file_same h ps vars p nm N _ _ _ _ _ _ _ _ S S' Same ks name b _ _ A A' (fun _ s => ne_own _ _ _ _ _ s) Spc) as [anc2 Spc2].
    destruct (spine_unique _ _ _ _ _ Spc2 D1' _ _ Spc') as [-> ->].
    destruct (spine_split _ _ _ _ _ _ Spc) as (anc1 & dd & Sp & Sl). inversion Sl as [|nm1 chp src1 c ? ? ? ? Ic Sl2]; subst. inversion Sl2; subst.
    destruct (reach (build_pr h meta vars (NDir rn ch src)) vars _ _ _ _ _ Sp _ _ _ _ _ _ _ _ _ eq_refl eq_refl (F0 ch) M Ic Ff) as (e1 & c3 & Fo & Bc & _).
    destruct (spine_split _ _ _ _ _ _ Spc') as (anc1' & dd' & Sp' & Sl'). inversion Sl' as [|nm1' chp' src1' c' ? ? ? ? Ic' Sl2']; subst. inversion Sl2'; subst.
    destruct S as (De & Dl & C & P).
    destruct f as [cn cb cp cm cs|]; [|discriminate]. cbn [n_source n_name build_node] in *.
    assert (Ep : forall t, cp = PHtml t -> asking N t).
    { destruct (ready_tokens _ _ _ _ _ _ C _ _ _ _ _ _ _ P eq_refl Spc eq_refl) as (bb & _ & _ & _ & Tk). cbn [n_parsed] in Tk. intros t ->. destruct Tk as (_ & body & T1 & T2).
      intros k s I Kk. apply ne_own. exists body, (map t_inner t), (t_inner k). split; [exact T1|]. split; [eapply parse_means; eauto|]. split; [now apply in_map|exact Kk]. }
    assert (Et : forall tn t, is_template tn -> template_of tn (chp :: anc1) (Some t) -> asking N t).
    { intros tn t It Tm. destruct (template_tokens _ _ _ _ _ _ C _ _ P _ _ _ _ _ _ Spc Tm) as (ks1 & ks2 & body & Ek2 & T1 & T2).
      intros k s I Kk. eapply ne_template; [exact Ek2|exact It|]. exists body, (map t_inner t), (t_inner k). split; [exact T1|]. split; [eapply parse_means; eauto|]. split; [now apply in_map|exact Kk]. }
    assert (En : env_in (asking N) e1).
    { destruct Fo as (V & R & Md). split; intros t Q.
      - rewrite Q in R. apply (Et (lit "root.html")); [now left|exact R].
      - rewrite Q in Md. apply (Et (lit "md.html")); [now right|exact Md]. }
    destruct (process_asking _ _ _ _ _ _ _ _ _ (ready_view _ _ _ _ _ N _ _ _ _ _ _ _ _ S S' Same Closed) En Ep Bc) as (x1 & x2 & x3 & mt & Ex & Bc').
    assert (Al : Forall2 alike_in (chp :: anc1) (chp' :: anc1')).
    { eapply (spine_alike _ _ _ _ _ Sp); [reflexivity|exact D1|exact Sp'|exact D1'|constructor|]. intros ks1 ks2 t r Ek2 It. destruct (T ks1 ks2 t Ek2 It) as [T1 T2]. split; intros Tm.
      - eapply (tmpl_same _ _ _ _ _ N); [exact S|exact S'|exact Same|exact It| | |exact Tm]; [intros bb; apply T1|apply T2].
      - eapply (tmpl_same _ _ _ _ _ N); [exact S'|exact S| |exact It| | |exact Tm]; [intros s qs Ns Pq; apply there_sym; eauto|intros bb; apply T1|apply T2]. }
    assert (Ee : e1' = e1).
    { destruct (spine_distinct _ _ _ _ _ Sp' D1') as [Dd Da]; [constructor|]. inversion Dd as [|? ? ? Dn _]; subst.
      assert (Dall : Forall (fun c => NoDup (map n_name c)) (chp' :: anc1')) by now constructor.
      destruct Fo as (V & R & Md). destruct Fo' as (V' & R' & Md'). destruct e1 as [v1 r1 m1], e1' as [v1' r1' m1']. cbn [ev_vars ev_root ev_md] in *.
      assert (r1' = r1) by (eapply template_unique; [exact Dall|exact R'|]; eapply template_alike; [now left|exact R|exact Al]).
      assert (m1' = m1) by (eapply template_unique; [exact Dall|exact Md'|]; eapply template_alike; [now right|exact Md|exact Al]). congruence. }
    subst e1'. exact (K _ Bc').
  Qed.
End Kept.

Lemma changed_same qs qn e e' : changed qs qn e e' -> forall pl, pl <> qs ++ [qn] -> (has_ext qn (lit "md") -> pl <> qs) -> same_there e e' pl.
Proof.
  intros Ed pl N1 N2. assert (Ed' := changed_sym _ _ _ _ Ed). split; [intros bb; split; now apply (changed_at qs qn)|]. intros ms. split; intros (l & Al & P).
  - destruct (changed_listing _ _ _ _ Ed _ _ Al) as (l' & B1 & Q). exists l'. split; [exact B1|]. now apply Q.
  - destruct (changed_listing _ _ _ _ Ed' _ _ Al) as (l' & B1 & Q). exists l'. split; [exact B1|]. now apply Q.
Qed.
Lemma changed_around qs qn e e' ks : changed qs qn e e' -> (is_template qn -> forall ks2, ks <> qs ++ ks2) -> same_around e e' ks.
Proof.
  intros Ed NT ks1 ks2 t -> It. assert (Ed' := changed_sym _ _ _ _ Ed).
  assert (N : ks1 ++ [t] <> qs ++ [qn]). { intros X. apply app_inj_tail in X as [-> ->]. now apply (NT It ks2). }
  split; [intros bb; split; now apply (changed_at qs qn)|]. split; intros [l Al].
  - destruct (changed_listing _ _ _ _ Ed _ _ Al) as (l' & B1 & _). eauto.
  - destruct (changed_listing _ _ _ _ Ed' _ _ Al) as (l' & B1 & _). eauto.
Qed.
(** The output of a build that succeeds. *)
Lemma built_out h osenv mode d st : snd (build h osenv mode d st) = Ok tt -> exists out, st_output (fst (build h osenv mode d st)) = Some out.
Proof.
  unfold build. destruct (node_new _ _ _ _ _ _) as [i| | |]; cbn [snd]; try discriminate. destruct (preprocess _ i); cbn [snd]; try discriminate.
  destruct (build_tree _ _ _ _) as [[a' out]| | |]; cbn [snd fst st_output]; try discriminate. eauto.
Qed.
Lemma inert_kind h ps p name b n0 : inert h ps name b -> create_from_file h ps true p name b = Ok n0 ->
  exists pc, n0 = NFile name b pc None p /\ (pc = PNone \/ exists v, pc = PJson v).
Proof.
  intros In Cf. destruct (create_file_kind _ _ _ _ _ _ Cf) as (pc & -> & K). exists pc. split; [reflexivity|].
  destruct K as [(Y & t' & ->)|[(Y & m & -> & _)|[(Y & v' & ->)|[(ext & np & c & Y & N1 & N2 & N3 & I & Q & ->)|(-> & Q)]]]]; [exfalso..|right; eauto|exfalso|now left];
    destruct In as [t v X U J|Pn].
  - pose proof (has_ext_unique _ _ _ X Y) as Z; discriminate Z.
  - destruct (Pn _ Y) as [Z _]. apply Z. now left.
  - pose proof (has_ext_unique _ _ _ X Y) as Z; discriminate Z.
  - destruct (Pn _ Y) as [Z _]. apply Z. right. now left.
  - pose proof (has_ext_unique _ _ _ X Y) as Z. now subst ext.
  - destruct (Pn _ Y) as [_ Z]. exact (Z _ I Q).
Qed.
Section Changed.
  Variables (h : host) (osenv : list (text * text)) (mode : text) (d d' : source_dir) (st st' : stuart) (e e' : ent) (qs : list text) (qn : text).
  Hypothesis B : snd (build h osenv mode d st) = Ok tt.
  Hypothesis E : sd_ent d = Some e.
  Hypothesis E' : sd_ent d' = Some e'.
  Hypothesis Pa : sd_path d' = sd_path d.
  Hypothesis Na : sd_name d' = sd_name d.
  Hypothesis Pl : st_plugins st' = st_plugins st.
  Hypothesis De : ent_distinct e.
  Hypothesis Ed : changed qs qn e e'.
  Let De' : ent_distinct e'.
  Proof. exact (changed_distinct _ _ _ _ Ed De). Qed.
  (** Either the changed file cannot be read, or all can. *)
  Lemma changed_load r : stops h (st_plugins st') (sd_path d') (sd_name d') e' r ->
    exists b, ent_at e' (qs ++ [qn]) (EFile b) /\ stops h (st_plugins st') (sd_path d' ++ qs ++ [qn]) qn (EFile b) r.
  Proof.
    destruct (build_sound _ _ _ _ _ B) as (l & El & Sd). rewrite E in El. injection El as ->. rewrite Pl, Pa, Na. now apply (changed_stops h _ _ _ _ _ Ed).
  Qed.
  Lemma not_untouched i' ks name : create_from h (st_plugins st') true (sd_path d') (sd_name d') e' = Ok i' ->
    ill_body h (st_plugins st') (build_vars osenv mode) (sd_path d') (cf_meta (st_config st')) e' i' ks name \/
    ill_page h (build_vars osenv mode) (cf_meta (st_config st')) i' ks name ->
    ~ untouched h (st_plugins st') e' qs qn ks name.
  Proof.
    intros C' Ill (U1 & U2 & U3). destruct (built_out _ _ _ _ _ B) as [out O].
    destruct (build_run _ _ _ _ _ _ _ B O E) as (l & i & rn & ch & src & ch1 & El & C & P & M & ->).
    assert (S : site_of h (st_plugins st) (build_vars osenv mode) (sd_path d) (sd_name d) (cf_meta (st_config st)) e i (NDir rn ch src)) by (repeat split; try assumption; now exists l).
    rewrite Pa, Na, Pl in *. assert (Ed' := changed_sym _ _ _ _ Ed). destruct (changed_dir _ _ _ _ Ed) as [_ Dl'].
    assert (F : exists b, ent_at e' (ks ++ [name]) (EFile b)).
    { destruct Ill as [(b & n0 & A & _)|(i1 & anc & f & e1 & P1 & Sp & Ff & _)]; [eauto|].
      destruct (loaded_at _ _ _ _ _ _ _ _ Sp Ff _ _ _ _ C' P1) as (b & n0 & A & _). eauto. }
    destruct F as [b A']. assert (A := changed_at _ _ _ _ Ed' _ _ U1 A').
    pose proof (changed_around _ _ _ _ _ Ed U2) as T.
    assert (Same' : forall s pl, needs h (st_plugins st) e' ks name s -> path_of s pl -> same_there e' e pl).
    { intros s pl Ns Ps. destruct (U3 _ _ Ns Ps) as [N1 N2]. now apply (changed_same qs qn). }
    assert (Same : forall s pl, needs h (st_plugins st) e ks name s -> path_of s pl -> same_there e e' pl).
    { intros s pl Ns Ps. apply there_sym. apply (Same' s); [|exact Ps]. apply (needs_same h (st_plugins st) e' e ks name b De A' A (around_sym _ _ _ T) Same' s Ns). }
    destruct Ill as [Ill|Ill].
    - revert Ill. eapply kept_body; eassumption.
    - revert Ill. eapply kept_page; try eassumption. reflexivity.
  Qed.
  Lemma changed_safe : (forall b, ent_at e' (qs ++ [qn]) (EFile b) -> inert h (st_plugins st) qn b) ->
    (forall ks name b, ent_at e' (ks ++ [name]) (EFile b) -> ks ++ [name] <> qs ++ [qn] -> untouched h (st_plugins st) e' qs qn ks name) ->
    snd (build h osenv mode d' st') = Ok tt.
  Proof.
    intros In Un. destruct (changed_dir _ _ _ _ Ed) as [_ [l' El']].
    assert (So : forall b, ent_at e' (qs ++ [qn]) (EFile b) -> sound h (st_plugins st') (sd_path d' ++ qs ++ [qn]) qn b).
    { intros b A. rewrite Pl. destruct (In b A); [eapply so_json; eassumption|now apply so_plain]. }
    assert (C : exists i', create_from h (st_plugins st') true (sd_path d') (sd_name d') e' = Ok i').
    { destruct (tree_cases h (st_plugins st') e' (sd_path d') (sd_name d')) as [[_ C]|[(x & Sp & _)|[Sp _]]]; [exact C| |];
        destruct (changed_load _ Sp) as (b & A & Sb); exfalso; (eapply sound_no_stop; [|exact Sb]); constructor; now apply So. }
    destruct C as [i' C'].
    assert (Bad : snd (build h osenv mode d' st') <> Ok tt -> False).
    { intros N. pose proof E' as E2. pose proof C' as C2. rewrite El' in E2, C2. destruct (build_ill _ _ _ _ _ _ _ E2 C2 N) as (ks & name & Ill). rewrite <- El' in Ill. clear E2 C2 N.
      assert (F : exists b, ent_at e' (ks ++ [name]) (EFile b)).
      { destruct Ill as [(b & n0 & A & _)|(i1 & anc & f & e1 & P1 & Sp & Ff & _)]; [eauto|].
        destruct (loaded_at _ _ _ _ _ _ _ _ Sp Ff _ _ _ _ C' P1) as (b & n0 & A & _); eauto. }
      destruct F as [b A]. destruct (list_eq_dec (list_eq_dec N.eq_dec) (ks ++ [name]) (qs ++ [qn])) as [Eq|Ne].
      2: { apply (not_untouched _ _ _ C' Ill). rewrite Pl. exact (Un _ _ _ A Ne). }
      apply app_inj_tail in Eq as [-> ->]. specialize (In _ A). rewrite <- Pl in In.
      destruct Ill as [(b' & n0 & A' & Cf & K)|(i1 & anc & f & e1 & P1 & Sp & Ff & _ & K)].
      - pose proof (ent_unique _ _ _ A De' _ A') as X. injection X as <-. destruct (inert_kind _ _ _ _ _ _ In Cf) as (pc & -> & [->|[v ->]]); now apply (K _ eq_refl).
      - destruct (loaded_at _ _ _ _ _ _ _ _ Sp Ff _ _ _ _ C' P1) as (b' & n0 & A' & Cf & Q). pose proof (ent_unique _ _ _ A De' _ A') as X. injection X as <-.
        rewrite last_last in Cf. destruct (inert_kind _ _ _ _ _ _ In Cf) as (pc & -> & [->|[v ->]]); cbn [preprocess] in Q; injection Q as <-; cbn [build_node] in K; unfold process_file in K;
          destruct (is_template_name qn); now apply (K _ eq_refl). }
    destruct (snd (build h osenv mode d' st')) as [[]|x|q|]; [reflexivity|exfalso; apply Bad; discriminate..].
  Qed.
End Changed.

(** ** Whose error it is *)
Lemma fails_process pr vars anc f x : fails pr vars anc f x -> exists e1, in_force vars anc e1 /\ build_node pr e1 f = Err x.
Proof.
  intros [g pg root md y Pg R M Re|name b c meta src root md y Nt R M Np]; exists (Env vars root md); (split; [now repeat split|]).
  - inversion Pg as [name b t meta src Nt|name b m meta src Nt]; subst; cbn [build_node n_source] in *; unfold process_file.
    + replace (is_template_name name) with false by (symmetry; destruct (is_template_name name) eqn:T; [apply is_template_spec in T; contradiction|reflexivity]).
      cbn [render_page] in Re. rewrite Re. reflexivity.
    + replace (is_template_name name) with false by (symmetry; destruct (is_template_name name) eqn:T; [apply is_template_spec in T; contradiction|reflexivity]).
      cbn [render_page] in Re. rewrite Re. reflexivity.
  - cbn [build_node]. unfold process_file.
    replace (is_template_name name) with false by (symmetry; destruct (is_template_name name) eqn:T; [apply is_template_spec in T; contradiction|reflexivity]).
    rewrite Np. reflexivity.
Qed.
Lemma build_culprit h osenv mode d st x l input : ent_distinct (EDir l) -> plugins_give plugin_ok (st_plugins st) -> sd_ent d = Some (EDir l) ->
  create_from h (st_plugins st) true (sd_path d) (sd_name d) (EDir l) = Ok input -> snd (build h osenv mode d st) = Err x ->
  exists dirs name, fault_of h (st_plugins st) (sd_path d) (EDir l) dirs name x /\
    (ill_body h (st_plugins st) (build_vars osenv mode) (sd_path d) (cf_meta (st_config st)) (EDir l) input dirs name \/
     ill_page h (build_vars osenv mode) (cf_meta (st_config st)) input dirs name).
Proof.
  intros D G E0 N. unfold build. rewrite E0. unfold node_new. rewrite N. cbv zeta.
  set (vars := build_vars osenv mode). intros B.
  assert (TG := create_good _ _ _ _ G _ _ _ N). set (ps := st_plugins st) in *. set (meta := cf_meta (st_config st)) in *.
  assert (NC : ~ In c_colon (fr_name (base_frame vars))) by (cbn; intuition discriminate).
  assert (PP : forall name b m me src y, inside (NFile name b (PMarkdown m) me src) input ->
    preprocess_markdown (build_pr h meta vars input) src m = Err y -> exists dirs name, fault_of h ps (sd_path d) (EDir l) dirs name (E_Process y) /\ (ill_body h ps vars (sd_path d) meta (EDir l) input dirs name \/ ill_page h vars meta input dirs name)).
  { intros name b m me src y I Q. assert (If := TG _ I). cbn [file_good] in If. destruct If as [If _].
    destruct (inside_file _ _ _ _ _ _ _ N I eq_refl) as [[_ (b1 & E & _)]|(dirs & k & b1 & A & C)]; [discriminate|].
    assert (K := file_tokens _ _ _ _ _ _ _ _ _ eq_refl A C). destruct (create_file_kind _ _ _ _ _ _ C) as (pc & E & _). injection E as -> -> <- -> ->.
    cbn [n_parsed] in K. destruct K as (HX & body & K1 & K2).
    exists dirs, k. split; [|left; exists b1, (NFile k b1 (PMarkdown m) None (sd_path d ++ dirs ++ [k])); split; [exact A|]; split; [exact C|]; cbn [preprocess]; unfold ps; rewrite Q; discriminate].
    apply (fo_page _ _ _ _ dirs k b1); [exact A|now right|].
    unfold preprocess_markdown in Q. cbn [pr_base build_pr] in Q. destruct (phase _ _ _ _) as [s|z|q|] eqn:Ph; cbn [bind] in Q; try discriminate.
    + assert (Y : y = TB (sd_path d ++ dirs ++ [k]) 0 0 XE_StackError).
      { destruct (sc_stack s) as [|f0 r]; [congruence|]. destruct (is_base f0); [|congruence]. destruct (from_utf8 _); [discriminate|congruence]. }
      subst y. apply pf_stack.
    + injection Q as ->. apply pf_own. eapply blame_file; [exact K1|exact K2|]. unfold phase in Ph. cbn [pr_input build_pr] in Ph.
      eapply (run_blames (World _ _ _)); [|exact NC|exact Ph]. exact If. }
  destruct (preprocess _ input) as [input'|y|q|] eqn:P; cbn [snd] in B; try discriminate.
  - destruct (preprocess_good _ _ _ _ TG P) as [TG' _].
    destruct (build_tree _ _ _ _) as [[i o]|y|q|] eqn:T; cbn [snd] in B; try discriminate. injection B as ->.
    apply tree_fails in T. destruct T as [(name & b & m & me & src & y & I & Q & ->)|(i2 & anc & f & P2 & Fo & Fa)].
    { eapply PP; eassumption. }
    unfold build_pr in P2. rewrite P in P2. injection P2 as <-.
    destruct (found_spine _ _ _ Fo []) as [ks S]. rewrite app_nil_r in S.
    assert (Ff : is_file f = true). { destruct Fa as [f pg root md y Pg _ _ _|]; [inversion Pg; reflexivity|reflexivity]. }
    assert (KS : exists dirs name, ks = dirs ++ [name]).
    { destruct ks as [|k ks0 _] using rev_ind; [|eauto]. exfalso. inversion S; subst.
      cbn [create_from] in N. destruct (map_res _ l); cbn [bind] in N; try discriminate. injection N as <-. cbn [preprocess] in P.
      destruct (map_res _ a); cbn [bind] in P; try discriminate. injection P as <-. discriminate Ff. }
    destruct KS as (dirs & name & ->).
    destruct (ready_tokens _ _ _ _ _ _ N _ _ _ _ _ _ _ P eq_refl S Ff) as (b & A & Sf & Nf & K).
    assert (TM : forall t r, template_of t anc (Some r) -> forall z, blamed r z -> exists ks1 ks2, dirs = ks1 ++ ks2 /\ at_tag h ps (sd_path d) (EDir l) (ks1 ++ [t]) z).
    { intros t r T z Bz. destruct (template_tokens _ _ _ _ _ _ N _ _ P _ _ _ _ _ _ S T) as (ks1 & ks2 & body & E1 & E2 & E3).
      exists ks1, ks2. split; [exact E1|]. eapply blame_file; eassumption. }
    assert (TP : forall t r, template_of t anc (Some r) -> plugins_of plugin_ok r).
    { intros t r T. apply template_split in T. destruct T as [[T _]|(a1 & ch & a2 & n & E & _ & I & _ & H)]; [discriminate|].
      destruct (level_in _ _ _ _ _ _ _ _ S E I) as [anc' Sn]. apply spine_inside in Sn. apply TG' in Sn.
      destruct n as [nn bn pn mn sn|]; [|discriminate]. destruct pn; try discriminate. cbn in H. injection H as <-. exact Sn. }
    assert (If := spine_inside _ _ _ _ _ S). apply TG' in If.
    exists dirs, name. split; [|right; exists input', anc, f; destruct (fails_process _ _ _ _ _ Fa) as (e1 & F1 & K1); exists e1; split; [exact P|]; split; [exact S|]; split; [exact Ff|]; split; [exact F1|]; intros o Bo; unfold build_pr in *; congruence].
    destruct Fa as [f pg root md y Pg R M Re|nm0 b0 c0 me0 src0 root md m0 Nt R M Np].
    + assert (HE : has_ext name (lit "html") \/ has_ext name (lit "md")).
      { inversion Pg; subst; cbn [n_parsed] in K; destruct K; auto. }
      assert (Q1 : plugins_of plugin_ok (page_tokens (Env vars root md) pg)).
      { inversion Pg; subst; cbn [page_tokens ev_md]; [exact If|]. destruct md as [t|]; [eapply TP; eassumption|intros ? ? []]. }
      assert (Q2 : plugins_of plugin_ok (root_tokens (Env vars root md))).
      { unfold root_tokens. cbn [ev_root]. destruct root as [t|]; [eapply TP; eassumption|intros ? ? []]. }
      apply (fo_page _ _ _ _ dirs name b); [exact A|exact HE|].
      destruct (page_blames (build_pr h meta vars input') _ _ _ _ _ _ eq_refl eq_refl NC Q1 Q2 Re) as [Bl|[Bl|(k & Pe & ->)]].
      * inversion Pg; subst; cbn [page_tokens ev_md n_parsed n_name] in *.
        -- apply pf_own. destruct K as (_ & body & K1 & K2). eapply blame_file; eassumption.
        -- destruct md as [t|]; [|destruct Bl as (? & [] & _)]. destruct (TM _ _ M _ Bl) as (ks1 & ks2 & E1 & E2).
           eapply pf_template; [exact E1| |exact E2]. right. split; [reflexivity|apply K].
      * unfold root_tokens in Bl. cbn [ev_root] in Bl. destruct root as [t|]; [|destruct Bl as (? & [] & _)].
        destruct (TM _ _ R _ Bl) as (ks1 & ks2 & E1 & E2). eapply pf_template; [exact E1| |exact E2]. now left.
      * rewrite Sf. destruct k; try contradiction; cbn [page_error ev_root ev_md] in Pe.
        -- apply pf_root. subst root. eapply template_lacking; try eassumption. now left.
        -- destruct Pe as [-> (n1 & m1 & ->)]. inversion Pg; subst. cbn [n_parsed n_name] in *. apply pf_md; [apply K|].
           eapply template_lacking; try eassumption. now right.
        -- apply pf_stack.
    + cbn [n_parsed n_source] in *. destruct K as (ext & np & K1 & K2 & K3 & K4). subst.
      eapply fo_plugin; eassumption.
  - injection B as ->. apply preprocess_fails in P. destruct P as (name & b & m & me & src & y & I & Q & ->). eapply PP; eassumption.
Qed.
Lemma stops_faulty h ps p name b x : stops h ps p name (EFile b) (Some x) -> ~ sound h ps p name b /\ faulty h ps p name b x.
Proof. intros S. inversion S; subst. now split. Qed.
Lemma changed_blame h osenv mode d d' st st' e e' qs qn x :
  snd (build h osenv mode d st) = Ok tt -> sd_ent d = Some e -> snd (build h osenv mode d' st') = Err x -> sd_ent d' = Some e' ->
  sd_path d' = sd_path d -> sd_name d' = sd_name d -> st_plugins st' = st_plugins st -> plugins_give plugin_ok (st_plugins st) -> ent_distinct e -> changed qs qn e e' ->
  (exists b, ent_at e' (qs ++ [qn]) (EFile b) /\ ~ sound h (st_plugins st) (sd_path d ++ qs ++ [qn]) qn b /\ faulty h (st_plugins st) (sd_path d ++ qs ++ [qn]) qn b x) \/
  exists ks name, fault_of h (st_plugins st) (sd_path d) e' ks name x /\ ~ untouched h (st_plugins st) e' qs qn ks name.
Proof.
  intros B E B' E' Pa Na Pl G De Ed. pose proof (changed_distinct _ _ _ _ Ed De) as De'. destruct (changed_dir _ _ _ _ Ed) as [_ [l' El']].
  destruct (tree_cases h (st_plugins st') e' (sd_path d') (sd_name d')) as [[_ [i' C']]|[(y & Sp & C')|[Sp [q C']]]].
  - right. rewrite <- Pa, <- Pl. pose proof C' as C2. pose proof E' as E2. pose proof De' as D2. rewrite El' in C2, E2, D2. rewrite <- Pl in G.
    destruct (build_culprit _ _ _ _ _ _ _ _ D2 G E2 C2 B') as (ks & name & F & Ill). rewrite <- El' in F, Ill. exists ks, name. split; [exact F|].
    eapply (not_untouched h osenv mode d d' st st' e e' qs qn); eassumption.
  - left. assert (y = x) as ->. { unfold build in B'. rewrite E' in B'. rewrite El' in B', C'. unfold node_new in B'. rewrite C' in B'. cbn [snd] in B'. congruence. }
    destruct (changed_load h osenv mode d d' st st' e e' qs qn B E Pa Na Pl De Ed _ Sp) as (b & A & Sb). exists b. split; [exact A|]. rewrite <- Pa, <- Pl. now apply stops_faulty.
  - unfold build in B'. rewrite E' in B'. rewrite El' in B', C'. unfold node_new in B'. rewrite C' in B'. discriminate.
Qed.
Lemma changed_own h osenv mode d d' st st' e e' qs qn x :
  snd (build h osenv mode d st) = Ok tt -> sd_ent d = Some e -> snd (build h osenv mode d' st') = Err x -> sd_ent d' = Some e' ->
  sd_path d' = sd_path d -> sd_name d' = sd_name d -> st_plugins st' = st_plugins st -> plugins_give plugin_ok (st_plugins st) -> ent_distinct e -> changed qs qn e e' ->
  (forall ks name b, ent_at e' (ks ++ [name]) (EFile b) -> ks ++ [name] <> qs ++ [qn] -> untouched h (st_plugins st) e' qs qn ks name) ->
  exists b, ent_at e' (qs ++ [qn]) (EFile b) /\
    (faulty h (st_plugins st) (sd_path d ++ qs ++ [qn]) qn b x \/ fault_of h (st_plugins st) (sd_path d) e' qs qn x).
Proof.
  intros B E B' E' Pa Na Pl G De Ed Un. destruct (changed_blame _ _ _ _ _ _ _ _ _ _ _ _ B E B' E' Pa Na Pl G De Ed) as [(b & A & _ & F)|(ks & name & F & N)]; [exists b; auto|].
  assert (X : exists b, ent_at e' (ks ++ [name]) (EFile b)) by (destruct F; eauto). destruct X as [b A].
  destruct (list_eq_dec (list_eq_dec N.eq_dec) (ks ++ [name]) (qs ++ [qn])) as [Eq|Ne]; [|destruct N; eauto].
  apply app_inj_tail in Eq as [-> ->]. exists b. auto.
Qed.

(** ** For examples *)
Lemma no_needs h ps e : (forall ks n s, ~ asks_for h ps e (ks ++ [n]) s) -> forall ks name s, ~ needs h ps e ks name s.
Proof. intros N ks name s. induction 1 as [s Q|ks1 ks2 t s _ _ Q|s0 qs q s Ns IH _ _ Q]; now apply N in Q. Qed.
Lemma no_needs_untouched h ps e qs qn ks name : (forall ks n s, ~ asks_for h ps e (ks ++ [n]) s) -> ks ++ [name] <> qs ++ [qn] -> ~ is_template qn ->
  untouched h ps e qs qn ks name.
Proof. intros N Ne Nt. split; [exact Ne|]. split; [contradiction|]. intros s pl Ns. now apply no_needs in Ns. Qed.
