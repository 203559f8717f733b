(** CopyFacts.v -- pages that differ in where they are and what they are called only (C99). *)

From Coq Require Import String List NArith ZArith Bool Lia.
From Verif Require Import Js Shipped Text TextFacts Utf8 Json Base Syntax Parse Tree Interp Build SpecTemplate SpecScope SpecPage SpecTree SpecSite SpecBlame SpecLocal SpecNeeds SpecAlike.
From Verif Require Import ScopeFacts TreeFacts PathFacts GrammarFacts SiteFacts ViewFacts LocalFacts BlameFacts NeedsFacts AlikeFacts MoveFacts SpecCopies.
Import ListNotations.

(** ** Names *)
Definition named_as (name : text) (n : node) : node :=
  match n with NFile _ b pc meta src => NFile name b pc meta src | NDir _ ch src => NDir name ch src end.
Lemma same_extension name name' : same_kind name name' -> extension name' = extension name.
Proof.
  intros [H _]. destruct (extension name) as [e|] eqn:E.
  - apply extension_spec in E. apply H in E. now apply extension_spec in E.
  - destruct (extension name') as [e|] eqn:E'; [|reflexivity]. apply extension_spec in E'. apply H in E'. apply extension_spec in E'. congruence.
Qed.
Lemma create_named h ps p name name' b n : extension name' = extension name -> create_from_file h ps true p name b = Ok n ->
  create_from_file h ps true p name' b = Ok (named_as name' n).
Proof.
  intros X. unfold create_from_file. rewrite X. match goal with |- bind ?x _ = _ -> _ => destruct x as [pc| | |] end; cbn [bind]; try discriminate.
  intros E. now injection E as <-.
Qed.
Lemma preprocess_named pr name n n' : preprocess pr n = Ok n' -> preprocess pr (named_as name n) = Ok (named_as name n').
Proof.
  destruct n as [nm b pc meta src|nm ch src]; cbn [preprocess named_as].
  - destruct pc; try (intros E; now injection E as <-). destruct (preprocess_markdown _ _ _); cbn [map_err bind]; try discriminate. intros E; now injection E as <-.
  - destruct (map_res _ ch); cbn [bind]; try discriminate. intros E; now injection E as <-.
Qed.
Lemma template_name name : is_template_name name = true <-> is_template name.
Proof. unfold is_template_name, is_template. rewrite Bool.orb_true_iff, !text_eqb_eq. reflexivity. Qed.
Lemma not_template name : ~ is_template name -> is_template_name name = false.
Proof. intros H. destruct (is_template_name name) eqn:E; [|reflexivity]. now apply template_name in E. Qed.
(** The name of a page has no part in what is in it. *)
Lemma process_named pr e name name' b pc src nm o p meta : same_kind name name' -> (forall m, pc = PMarkdown m -> has_ext name (lit "md")) ->
  process_file pr e name b pc src = Ok (NFile nm o p meta src) -> exists nm', process_file pr e name' b pc src = Ok (NFile nm' o p meta src).
Proof.
  intros (X & N & N') Md. unfold process_file. rewrite (not_template _ N), (not_template _ N').
  destruct pc as [t|m|v|c| |]; try (cbn [bind po_name po_contents]; intros E; injection E as <- <- <- <-; now exists name').
  - destruct (process_html pr e src t) as [x| | |]; cbn [map_err bind]; try discriminate. intros E. injection E as <- <- <- <-. now eexists.
  - assert (Hx := Md m eq_refl). assert (Hx' := proj1 (X _) Hx). unfold process_markdown.
    destruct (ev_root e) as [root|]; cbn [ok_or map_err bind]; try discriminate. destruct (ev_md e) as [mt|]; cbn [ok_or map_err bind]; try discriminate.
    destruct (pr_base pr) as [bf|]; cbn [map_err bind]; try discriminate. destruct (md_to_value m) as [v| | |]; cbn [map_err bind]; try discriminate.
    destruct (two_phases _ _ _ _ _ _) as [x| | |]; cbn [map_err bind]; try discriminate.
    assert (S' : exists stem, strip_suffix (lit ".md") name' = Some stem).
    { destruct Hx' as (stem & -> & _). unfold strip_suffix. exists stem.
      change (stem ++ [c_dot] ++ lit "md") with (stem ++ lit ".md"). rewrite rev_app_distr.
      assert (Sp : forall p t, strip_prefix p (p ++ t) = Some t) by (clear; induction p as [|x p IH]; intros t; cbn [strip_prefix app]; [reflexivity|rewrite N.eqb_refl; apply IH]).
      rewrite Sp. now rewrite rev_involutive. }
    destruct S' as [stem' ->]. destruct (strip_suffix _ name) as [stem|]; cbn [map_err bind]; try discriminate. intros E. injection E as <- <- <- <-. now eexists.
  - destruct (np_process c e) as [err|x]; cbn [bind]; try discriminate. intros E. injection E as <- <- <- <-. now eexists.
Qed.

(** ** The template in force *)
Lemma force_split i t ks : forall anc nm ch src, spine i [] ks anc (NDir nm ch src) ->
  (exists ks1 ks2 anc1 nm1 ch1 src1 n, ks = ks1 ++ ks2 /\ spine i [] ks1 anc1 (NDir nm1 ch1 src1) /\ In n ch1 /\ n_name n = t /\ template_of t (ch :: anc) (html_of n) /\
     (forall a c anc' nm' ch' src', ks2 = a ++ c -> a <> [] -> spine i [] (ks1 ++ a) anc' (NDir nm' ch' src') -> distinct i -> ~ In t (map n_name ch'))) \/
  (template_of t (ch :: anc) None /\ forall a c anc' nm' ch' src', ks = a ++ c -> spine i [] a anc' (NDir nm' ch' src') -> distinct i -> ~ In t (map n_name ch')).
Proof.
  assert (Dec : forall ch, {In t (map n_name ch)} + {~ In t (map n_name ch)}) by (intros ch; apply in_dec; apply (list_eq_dec N.eq_dec)).
  induction ks as [|k ks IH] using rev_ind; intros anc nm ch src Sp.
  - inversion Sp; subst. destruct (Dec ch) as [I|N].
    + left. apply in_map_iff in I. destruct I as (n & <- & I). exists [], [], [], nm, ch, src, n. split; [reflexivity|]. split; [constructor|]. split; [exact I|]. split; [reflexivity|].
      split; [now constructor|]. intros [|? a] c anc' nm' ch' src' E NE; [contradiction|discriminate].
    + right. split; [apply to_up; [exact N|constructor]|]. intros [|? a] c anc' nm' ch' src' E S2 D; [|discriminate]. inversion S2; subst. exact N.
  - destruct (spine_split _ _ _ _ _ _ Sp) as (anc1 & d & S1 & S2). inversion S2 as [|nmd chd srcd c0 ? ? ? ? Ic S3]; subst. inversion S3; subst. cbn [n_name] in *.
    assert (Last : forall anc' nm' ch' src', spine i [] (ks ++ [nm]) anc' (NDir nm' ch' src') -> distinct i -> ch' = ch).
    { intros anc' nm' ch' src' S D. destruct (spine_unique _ _ _ _ _ Sp D _ _ S) as [_ X]. now injection X. }
    destruct (Dec ch) as [I|N].
    + left. apply in_map_iff in I. destruct I as (n & <- & I). exists (ks ++ [nm]), [], (chd :: anc1), nm, ch, src, n. rewrite app_nil_r. split; [reflexivity|]. split; [exact Sp|]. split; [exact I|]. split; [reflexivity|].
      split; [now constructor|]. intros [|? a] c anc' nm' ch' src' E NE; [contradiction|discriminate].
    + destruct (IH _ _ _ _ S1) as [(k1 & k2 & a1 & nm1 & ch1 & src1 & n & -> & Sn & In1 & Nn & T & C)|[T C]].
      * left. exists k1, (k2 ++ [nm]), a1, nm1, ch1, src1, n. split; [now rewrite app_assoc|]. split; [exact Sn|]. split; [exact In1|]. split; [exact Nn|]. split; [now apply to_up|].
        intros a c anc' nm' ch' src' E NE S D. destruct c as [|x c _] using rev_ind.
        -- rewrite app_nil_r in E. subst a. rewrite app_assoc in S. now rewrite (Last _ _ _ _ S D).
        -- rewrite app_assoc in E. apply app_inj_tail in E. destruct E as [E _]. eapply C; eassumption.
      * right. split; [now apply to_up|]. intros a c anc' nm' ch' src' E S D. destruct c as [|x c _] using rev_ind.
        -- rewrite app_nil_r in E. subst a. now rewrite (Last _ _ _ _ S D).
        -- rewrite app_assoc in E. apply app_inj_tail in E. destruct E as [E _]. eapply C; eassumption.
Qed.
Lemma created_template h ps q t b n : is_template t -> create_from_file h ps true q t b = Ok n -> exists toks, n = NFile t b (PHtml toks) None q.
Proof.
  intros It. unfold create_from_file. assert (X : extension t = Some (lit "html")) by (destruct It as [-> | ->]; reflexivity). rewrite X. change (text_eqb (lit "html") (lit "html")) with true. cbv iota.
  match goal with |- bind (bind ?x _) _ = _ -> _ => destruct x as [tx| | |] end; cbn [bind]; try discriminate.
  match goal with |- bind (bind ?x _) _ = _ -> _ => destruct x as [toks| | |] end; cbn [bind]; try discriminate. intros E. injection E as <-. now exists toks.
Qed.
(** Two prefixes of one path. *)
Lemma two_prefixes {A} (a1 b1 a2 b2 : list A) : a1 ++ b1 = a2 ++ b2 ->
  (exists c, a2 = a1 ++ c /\ b1 = c ++ b2) \/ (exists c, c <> [] /\ a1 = a2 ++ c /\ b2 = c ++ b1).
Proof.
  revert a2. induction a1 as [|x a1 IH]; intros a2 E; [left; now exists a2|]. destruct a2 as [|y a2].
  - right. exists (x :: a1). split; [discriminate|]. now split.
  - cbn in E. injection E as <- E. destruct (IH _ E) as [(c & -> & ->)|(c & NE & -> & ->)]; [left; now exists c|right; now exists c].
Qed.
Section Force.
  Variables (h : host) (ps : list plugin) (vars : list (text * text)) (p : path) (nm : text) (meta : bool) (e : ent) (i i1 : node).
  Hypothesis S : site_of h ps vars p nm meta e i i1.
  Lemma spine_entry ks anc nmd ch src t : spine i1 [] ks anc (NDir nmd ch src) -> forall x, ent_at e (ks ++ [t]) x -> In t (map n_name ch).
  Proof.
    destruct (site_facts _ _ _ _ _ _ _ _ _ S) as (Di & D1 & _ & _ & St). intros Sp x A.
    destruct (stands_at _ _ _ _ A _ _ [] St) as (anc' & n & k & Sn & _). destruct (spine_split _ _ _ _ _ _ Sn) as (a1 & d & S1 & S2).
    destruct (spine_unique _ _ _ _ _ Sp D1 _ _ S1) as [<- <-]. inversion S2; subst. now apply in_map.
  Qed.
  Lemma force_file t ks anc nmd ch src r : is_template t -> spine i1 [] ks anc (NDir nmd ch src) -> template_of t (ch :: anc) r ->
    (exists b q n toks, closest e t ks b /\ create_from_file h ps true q t b = Ok n /\ n_parsed n = PHtml toks /\ r = Some toks) \/
    (r = None /\ forall b, ~ closest e t ks b).
  Proof.
    intros It Sp T. destruct (site_facts _ _ _ _ _ _ _ _ _ S) as (Di & D1 & _ & K1 & St).
    assert (De : ent_distinct e) by apply S.
    assert (U : forall r', template_of t (ch :: anc) r' -> r = r').
    { intros r' T'. destruct (spine_distinct _ _ _ _ _ Sp D1 (Forall_nil _)) as [Dd Da]. inversion Dd; subst. eapply template_unique; [|exact T|exact T']. now constructor. }
    assert (Up : forall k1 k2 a c, k1 ++ k2 = ks -> k2 = a ++ c -> exists anc' nm' ch' src', spine i1 [] (k1 ++ a) anc' (NDir nm' ch' src')).
    { intros k1 k2 a c <- ->. rewrite app_assoc in Sp. destruct (spine_split _ _ _ _ _ _ Sp) as (a1 & d & S1 & S2). destruct d as [|nm' ch' src']; [inversion S2|]. now exists a1, nm', ch', src'. }
    destruct (force_split i1 t ks anc nmd ch src Sp) as [(k1 & k2 & a1 & nm1 & ch1 & src1 & n & Ek & Sn & In1 & Nn & Tn & C)|[Tn C]].
    - apply U in Tn. subst r.
      assert (Se : spine i1 [] (k1 ++ [t]) (ch1 :: a1) n). { eapply spine_app; [exact Sn|]. rewrite <- Nn. econstructor; [exact In1|constructor]. }
      destruct (spine_stands _ _ _ _ _ _ Se _ _ St) as (k & x & Ax & Sx).
      assert (Cl : forall a c y, k2 = a ++ c -> a <> [] -> ~ ent_at e (k1 ++ a ++ [t]) y).
      { intros a c y E2 NE Ay. destruct (Up k1 k2 a c (eq_sym Ek) E2) as (anc' & nm' & ch' & src' & Sa). rewrite app_assoc in Ay.
        exact (C a c _ _ _ _ E2 NE Sa D1 (spine_entry _ _ _ _ _ _ Sa _ Ay)). }
      inversion Sx as [? b ? R Nm F|? l ch0 src0 F]; subst.
      + left. destruct R as (n0 & (q & L) & P).
        destruct (created_template h ps q _ b n0 It L) as (toks & En). subst n0. cbn [preprocess] in P. injection P as <-. cbn [n_name] in *.
        eexists b, q, _, toks. split; [|split; [exact L|split; reflexivity]]. exists k1, k2. split; [reflexivity|]. split; [exact Ax|exact Cl].
      + right. split; [reflexivity|]. intros b (j1 & j2 & Ej & Aj & Cj). destruct (two_prefixes _ _ _ _ Ej) as [(c & -> & ->)|(c & NE & -> & ->)].
        * destruct c as [|y c].
          -- rewrite app_nil_r in Aj. pose proof (ent_unique _ _ _ Ax De _ Aj). discriminate.
          -- apply (Cl (y :: c) j2 (EFile b)); [reflexivity|discriminate|]. now rewrite app_assoc.
        * apply (Cj c k2 (EDir l)); [reflexivity|exact NE|]. now rewrite app_assoc.
    - apply U in Tn. subst r. right. split; [reflexivity|]. intros b (j1 & j2 & Ej & Aj & Cj).
      destruct (Up j1 j2 [] j2 (eq_sym Ej) eq_refl) as (anc' & nm' & ch' & src' & Sa). rewrite app_nil_r in Sa.
      exact (C j1 j2 _ _ _ _ Ej Sa D1 (spine_entry _ _ _ _ _ _ Sa _ Aj)).
  Qed.
End Force.

(** ** The same page elsewhere *)
Definition any (_ _ : path) : Prop := True.
Lemma pr_like h meta vars n : like_node any None n n -> like_pr any None (build_pr h meta vars n) (build_pr h meta vars n).
Proof. intros L. repeat split; cbn; [exact L|]. now apply base_like. Qed.
Lemma site_like h ps vars p nm meta e i i1 : placeless ps -> site_of h ps vars p nm meta e i i1 -> like_node any None i i /\ like_node any None i1 i1.
Proof.
  intros Pl (_ & _ & C & P).
  assert (L : like_node any None i i). { pose proof (create_like any (fun _ _ _ _ => I) h ps Pl e p p nm I) as B. rewrite C in B. exact B. }
  split; [exact L|]. pose proof (preprocess_like any None i _ _ _ (pr_like h meta vars i L) L) as B. rewrite P in B. exact B.
Qed.
Lemma closest_unique e t ks b b' : ent_distinct e -> closest e t ks b -> closest e t ks b' -> b' = b.
Proof.
  intros De (k1 & k2 & E1 & A1 & M1) (j1 & j2 & E2 & A2 & M2). rewrite E1 in E2. destruct (two_prefixes _ _ _ _ E2) as [(c & -> & ->)|(c & NE & -> & ->)].
  - destruct c as [|x c]; [|exfalso; apply (M1 (x :: c) j2 (EFile b')); [reflexivity|discriminate|now rewrite app_assoc]].
    rewrite app_nil_r in A2. pose proof (ent_unique _ _ _ A1 De _ A2) as X. now injection X.
  - exfalso. apply (M2 c k2 (EFile b)); [reflexivity|exact NE|]. now rewrite app_assoc.
Qed.
Lemma template_like h ps e e' ks ks' t r r' : placeless ps -> is_template t -> (forall b, closest e t ks b <-> closest e' t ks' b) -> ent_distinct e' ->
  ((exists b q n toks, closest e t ks b /\ create_from_file h ps true q t b = Ok n /\ n_parsed n = PHtml toks /\ r = Some toks) \/ (r = None /\ forall b, ~ closest e t ks b)) ->
  ((exists b q n toks, closest e' t ks' b /\ create_from_file h ps true q t b = Ok n /\ n_parsed n = PHtml toks /\ r' = Some toks) \/ (r' = None /\ forall b, ~ closest e' t ks' b)) ->
  like_opt (like_tokens any) r r' /\ (forall k, r = Some k -> Forall (good any None) k).
Proof.
  intros Pl It Q De [(b & q & n & toks & C & F & E & ->)|[-> N]] [(b' & q' & n' & toks' & C' & F' & E' & ->)|[-> N']]; cbn [like_opt].
  - apply Q in C. pose proof (closest_unique _ _ _ _ _ De C C') as ->.
    pose proof (create_file_like any h ps Pl q q' t b I) as B. rewrite F, F' in B. cbn [both] in B. inversion B as [? ? ? ? ? ? ? _ L|]; subst; [|discriminate]. cbn [n_parsed] in *. subst. inversion L; subst.
    split; [assumption|]. intros k X. now injection X as <-.
  - exfalso. apply (N' b). now apply Q.
  - exfalso. apply (N b'). now apply Q.
  - split; [exact I|discriminate].
Qed.
Lemma preprocess_view P pr pr' n c : pr_views P pr pr' -> (forall m, n_parsed n = PMarkdown m -> P (md_tokens m)) -> is_file n = true -> preprocess pr n = Ok c -> preprocess pr' n = Ok c.
Proof.
  intros V A F. destruct n as [name b pc mt src|]; [|discriminate]. cbn [preprocess n_parsed] in *. destruct pc; auto.
  destruct (preprocess_markdown pr src m) as [m1| | |] eqn:E; cbn [map_err bind]; try discriminate. now rewrite (body_view _ _ _ _ _ _ V (A _ eq_refl) E).
Qed.
Lemma preprocess_md pr n nm b m mt s : preprocess pr n = Ok (NFile nm b (PMarkdown m) mt s) -> exists m0, n_parsed n = PMarkdown m0.
Proof.
  destruct n as [name bb pc mm src|]; cbn [preprocess n_parsed].
  - destruct pc as [t|m0|v|c| |]; try discriminate. intros _. now exists m0.
  - destruct (map_res _ _); cbn [bind]; discriminate.
Qed.
Lemma process_source pr e name b pc src nm o p meta s : process_file pr e name b pc src = Ok (NFile nm o p meta s) -> s = src.
Proof. unfold process_file. match goal with |- bind ?x _ = _ -> _ => destruct x as [o'| | |] end; cbn [bind]; try discriminate. intros E. now injection E. Qed.
Lemma other_page h osenv mode d d' st st' e e' out out' :
  snd (build h osenv mode d st) = Ok tt -> st_output (fst (build h osenv mode d st)) = Some out -> sd_ent d = Some e ->
  snd (build h osenv mode d' st') = Ok tt -> st_output (fst (build h osenv mode d' st')) = Some out' -> sd_ent d' = Some e' ->
  sd_path d' = sd_path d -> sd_name d' = sd_name d -> st_plugins st' = st_plugins st -> placeless (st_plugins st) -> ent_distinct e -> ent_distinct e' ->
  forall ks name ks' name' b, ent_at e (ks ++ [name]) (EFile b) -> ent_at e' (ks' ++ [name']) (EFile b) -> same_kind name name' -> same_templates_at e ks e' ks' ->
  (forall s qs, needs h (st_plugins st) e ks name s -> path_of s qs -> same_there e e' qs) ->
  forall nm o, page_from out ks (sd_path d ++ ks ++ [name]) nm o -> exists nm', page_from out' ks' (sd_path d ++ ks' ++ [name']) nm' o.
Proof.
  intros B O E B' O' E' Pa Na Pl Ls De De' ks name ks' name' b A A' Sk T Same nm o (pc & mt & At).
  destruct (build_run _ _ _ _ _ _ _ B O E) as (l & i & rn & ch & src & ch1 & El & C & P & M & ->).
  destruct (build_run _ _ _ _ _ _ _ B' O' E') as (l' & i' & rn' & ch' & src' & ch1' & El' & C' & P' & M' & ->).
  rewrite Pa, Na, Pl in C'. set (vars := build_vars osenv mode) in *. set (N := needs h (st_plugins st) e ks name) in *.
  assert (S : site_of h (st_plugins st) vars (sd_path d) (sd_name d) (cf_meta (st_config st)) e i (NDir rn ch src)) by (repeat split; try assumption; now exists l).
  assert (S' : site_of h (st_plugins st) vars (sd_path d) (sd_name d) (cf_meta (st_config st')) e' i' (NDir rn' ch' src')) by (repeat split; try assumption; now exists l').
  assert (Closed : forall s qs q s2, N s -> path_of s qs -> has_ext q (lit "md") -> asks_for h (st_plugins st) e (qs ++ [q]) s2 -> N s2).
  { intros s qs q s2 Ns Pq X Q. exact (ne_post _ _ _ _ _ _ _ _ _ Ns Pq X Q). }
  destruct (site_facts _ _ _ _ _ _ _ _ _ S) as (Di & D1 & Ki & K1 & St). destruct (site_facts _ _ _ _ _ _ _ _ _ S') as (Di' & D1' & Ki' & K1' & St').
  destruct (site_like _ _ _ _ _ _ _ _ _ Ls S') as [Li Li1]. clear El El'.
  assert (F0 : forall c, in_force vars [c] (env_update (env_update (Env vars None None) c) c)).
  { intros c. apply in_force_again, in_force_update. repeat split; constructor. }
  remember (ks ++ [nm]) as kk eqn:Ek. inversion At as [|? ? ? c1 ks0 ? Ic1 At']; subst.
  match goal with H : _ :: _ = ks ++ [nm] |- _ => rename H into Ek end.
  destruct (origin _ vars (NDir rn ch src) _ [] [] rn ch src _ ch1 eq_refl (sp_here _ _) (F0 ch) M _ _ _ _ _ _ _ Ic1 At')
    as (dirs & anc1 & nm1 & chp & src1 & c & e1 & Ed & Sp & Ic & Fc & Fo & Bc). cbn [app] in Sp.
  rewrite Ek in Ed. apply app_inj_tail in Ed. destruct Ed as [<- _].
  assert (Spc : spine (NDir rn ch src) [] (ks ++ [n_name c]) (chp :: anc1) c) by (eapply spine_app; [exact Sp|]; econstructor; [exact Ic|constructor]).
  destruct (loaded_at _ _ _ _ _ _ _ _ Spc Fc _ _ _ _ C P) as (b1 & n0 & A1 & B1 & Q1).
  destruct (created_source _ _ _ _ _ _ B1) as [Sn0 _]. destruct (preprocess_source _ _ _ Q1) as [Sc Nc]. rewrite Sn0 in Sc.
  destruct c as [cn cb cp cm cs|]; [|discriminate]. cbn [n_source n_name build_node] in *.
  assert (Es : cs = sd_path d ++ ks ++ [name]).
  { clear - Bc. unfold process_file in Bc. match type of Bc with bind ?x _ = _ => destruct x as [o'| | |] end; cbn [bind] in Bc; try discriminate. now injection Bc. }
  assert (cn = name) as ->. { rewrite Es in Sc. apply app_inv_head in Sc. apply app_inv_head in Sc. now injection Sc. }
  assert (Ep : forall t, cp = PHtml t -> asking N t).
  { destruct (ready_tokens _ _ _ _ _ _ C _ _ _ _ _ _ _ P eq_refl Spc eq_refl) as (bb & _ & _ & _ & Tk). cbn [n_parsed] in Tk. intros t ->. destruct Tk as (_ & body & T1 & T2).
    intros k s I K. apply ne_own. exists body, (map t_inner t), (t_inner k). split; [exact T1|]. split; [eapply parse_means; eauto|]. split; [now apply in_map|exact K]. }
  assert (Et : forall tn t, is_template tn -> template_of tn (chp :: anc1) (Some t) -> asking N t).
  { intros tn t It Tm. destruct (template_tokens _ _ _ _ _ _ C _ _ P _ _ _ _ _ _ Spc Tm) as (ks1 & ks2 & body & Ek2 & T1 & T2).
    intros k s I K. eapply ne_template; [exact Ek2|exact It|]. exists body, (map t_inner t), (t_inner k). split; [exact T1|]. split; [eapply parse_means; eauto|]. split; [now apply in_map|exact K]. }
  assert (En : env_in (asking N) e1).
  { destruct Fo as (V & R & Md). split; intros t Q.
    - rewrite Q in R. apply (Et (lit "root.html")); [now left|exact R].
    - rewrite Q in Md. apply (Et (lit "md.html")); [now right|exact Md]. }
  destruct (process_asking _ _ _ _ _ _ _ _ _ (ready_view _ _ _ _ _ N _ _ _ _ _ _ _ _ S S' Same Closed) En Ep Bc) as (x1 & x2 & x3 & meta' & Ex & Bc'). injection Ex as <- <- -> <- _.
  (* what was read *)
  assert (X := ent_unique _ _ _ A De _ A1). injection X as <-. rewrite last_last in B1.
  assert (Fn0 : is_file n0 = true) by (destruct (create_file_kind _ _ _ _ _ _ B1) as (pc0 & -> & _); reflexivity).
  assert (Q1' : preprocess (build_pr h (cf_meta (st_config st')) vars i') n0 = Ok (NFile name cb cp cm cs)).
  { eapply preprocess_view; [exact (raw_view _ _ _ _ _ N _ _ _ _ _ _ _ _ S S' Same)| |exact Fn0|exact Q1].
    intros m Em. destruct (file_asks h (st_plugins st) e (sd_path d) ks name b n0 N A B1 (fun s => ne_own _ _ _ _ _ s)) as [_ Am]. now apply Am. }
  assert (Mdc : forall m, cp = PMarkdown m -> has_ext name (lit "md")).
  { intros m Em. subst cp. destruct (preprocess_md _ _ _ _ _ _ _ Q1) as [m0 Em]. pose proof (file_tokens h (st_plugins st) (sd_path d) e name b (ks ++ [name]) ks n0 eq_refl A B1) as Tk. rewrite Em in Tk. apply Tk. }
  clear Nc.
  (* the other *)
  destruct (stands_at _ _ _ _ A' _ _ [] St') as (anc' & c2 & k' & Spc' & Sf'). assert (Ff' : is_file c2 = true) by (inversion Sf'; assumption).
  destruct (loaded_at _ _ _ _ _ _ _ _ Spc' Ff' _ _ _ _ C' P') as (b2 & n2 & A2 & B2 & Q2). assert (X := ent_unique _ _ _ A' De' _ A2). injection X as <-. rewrite last_last in B2.
  destruct (spine_split _ _ _ _ _ _ Spc') as (anc1' & dd & Sp' & Sl). inversion Sl as [|nm1' chp' src1' c3 ? ? ? ? Ic2 Sl2]; subst. inversion Sl2; subst. clear Sl2 Sl.
  pose proof (same_extension _ _ Sk) as Xt.
  pose proof (create_named _ _ _ _ name _ _ (eq_sym Xt) B2) as B2n. pose proof (preprocess_named _ name _ _ Q2) as Q2n.
  pose proof (create_file_like any h _ Ls (sd_path d ++ ks ++ [name]) (sd_path d ++ ks' ++ [n_name c2]) name b I) as Ln. rewrite B1, B2n in Ln. cbn [both] in Ln.
  pose proof (preprocess_like any None _ _ _ _ (pr_like h (cf_meta (st_config st')) vars i' Li) Ln) as Lc. rewrite Q1', Q2n in Lc. cbn [both] in Lc.
  destruct c2 as [cn2 cb2 cp2 cm2 cs2|]; [|discriminate]. cbn [named_as n_name] in *. inversion Lc as [? ? ? ? ? ? ? _ Lp|]; subst.
  destruct (created_source _ _ _ _ _ _ B2) as [Sn2 _]. destruct (preprocess_source _ _ _ Q2) as [Sc2 Nc2]. rewrite Sn2 in Sc2. cbn [n_source n_name] in Sc2, Nc2. clear Nc2.
  destruct (reach (build_pr h (cf_meta (st_config st')) vars (NDir rn' ch' src')) vars _ _ _ _ _ Sp' _ _ _ _ _ _ _ _ _ eq_refl eq_refl (F0 ch') M' Ic2 eq_refl) as (e1' & c3 & Fo' & Bc3 & At3).
  assert (Ef : env_fine any None e1 e1').
  { destruct Fo as (V & R & Md). destruct Fo' as (V' & R' & Md').
    destruct (template_like h (st_plugins st) e e' ks ks' (lit "root.html") (ev_root e1) (ev_root e1') Ls (or_introl eq_refl) (fun b0 => T _ b0 (or_introl eq_refl)) De'
       (force_file _ _ _ _ _ _ _ _ _ S _ _ _ _ _ _ _ (or_introl eq_refl) Sp R) (force_file _ _ _ _ _ _ _ _ _ S' _ _ _ _ _ _ _ (or_introl eq_refl) Sp' R')) as [L1 G1].
    destruct (template_like h (st_plugins st) e e' ks ks' (lit "md.html") (ev_md e1) (ev_md e1') Ls (or_intror eq_refl) (fun b0 => T _ b0 (or_intror eq_refl)) De'
       (force_file _ _ _ _ _ _ _ _ _ S _ _ _ _ _ _ _ (or_intror eq_refl) Sp Md) (force_file _ _ _ _ _ _ _ _ _ S' _ _ _ _ _ _ _ (or_intror eq_refl) Sp' Md')) as [L2 G2].
    split; [|split; assumption]. split; [|split; assumption]. cbn [agree]. congruence. }
  pose proof (file_like any None _ _ _ _ name cb2 _ _ (sd_path d ++ ks ++ [name]) cs2 (pr_like h (cf_meta (st_config st')) vars _ Li1) Ef I Lp) as Lo. rewrite Bc' in Lo.
  destruct (process_file _ e1' name cb2 cp2 cs2) as [o2| | |] eqn:Po; cbn [both] in Lo; try contradiction. inversion Lo; subst.
  assert (Md : forall m, cp2 = PMarkdown m -> has_ext name (lit "md")).
  { intros m Em. subst cp2. inversion Lp; subst. eapply Mdc. reflexivity. }
  pose proof (process_source _ _ _ _ _ _ _ _ _ _ _ Po). subst.
  destruct (process_named _ _ _ _ _ _ _ _ _ _ _ Sk Md Po) as [nm' Po'].
  cbn [build_node] in Bc3. rewrite Po' in Bc3. injection Bc3 as <-. exists nm', PNone, meta'. exact At3.
Qed.
Lemma there_refl e qs : same_there e e qs.
Proof. split; intros; reflexivity. Qed.
Lemma kind_sym name name' : same_kind name name' -> same_kind name' name.
Proof. intros (X & N & N'). split; [|now split]. intros x. symmetry. apply X. Qed.
Lemma copies h osenv mode d st e out : snd (build h osenv mode d st) = Ok tt -> st_output (fst (build h osenv mode d st)) = Some out -> sd_ent d = Some e ->
  placeless (st_plugins st) -> ent_distinct e ->
  forall ks name ks' name' b, ent_at e (ks ++ [name]) (EFile b) -> ent_at e (ks' ++ [name']) (EFile b) -> same_kind name name' -> same_templates_at e ks e ks' ->
  forall o, (exists nm, page_from out ks (sd_path d ++ ks ++ [name]) nm o) <-> (exists nm, page_from out ks' (sd_path d ++ ks' ++ [name']) nm o).
Proof.
  intros B O E Pl De ks name ks' name' b A A' K T o. split; intros [nm P].
  - exact (other_page h osenv mode d d st st e e out out B O E B O E eq_refl eq_refl eq_refl Pl De De ks name ks' name' b A A' K T (fun _ qs _ _ => there_refl e qs) nm o P).
  - refine (other_page h osenv mode d d st st e e out out B O E B O E eq_refl eq_refl eq_refl Pl De De ks' name' ks name b A' A (kind_sym _ _ K) _ (fun _ qs _ _ => there_refl e qs) nm o P).
    intros t bb It. symmetry. now apply T.
Qed.
(** Scripts and the plugins shipped do not look at where they are. *)
Lemma ours_placeless o ps : (forall pl, In pl ps -> In pl [Shipped.imgopt o; Shipped.demo] \/
    (pl_parsers pl = [] /\ forall f, In f (pl_fns pl) -> exists name code, f = Js.js_plugin_parser name code)) -> placeless ps.
Proof.
  intros H pl I. destruct (H pl I) as [J|J].
  - exact (shipped_steady (fun _ _ => True) None o pl J).
  - apply (js_all_steady (fun _ _ => True) [pl]); [|now left]. now intros q [<-|[]].
Qed.
(** The names in a tree. *)
Fixpoint names (e : ent) : list text := match e with EDir l => flat_map (fun kx => fst kx :: names (snd kx)) l | _ => [] end.
Lemma names_at e ks x : ent_at e ks x -> forall ks1 t, ks = ks1 ++ [t] -> In t (names e).
Proof.
  induction 1 as [e|l k c ks x I A IH]; intros ks1 t E; [now destruct ks1|]. cbn [names]. apply in_flat_map. exists (k, c). split; [exact I|].
  destruct ks1 as [|k1 ks1]; injection E as -> E; [now left|]. right. now apply (IH ks1).
Qed.
