(** ProgramFacts.v -- the commands of the program (C48, C49, C54, C55). *)

From Coq Require Import String List NArith ZArith Bool Lia.
From Verif Require Import Text Json Base Syntax Parse Tree Interp Build Disk Cli SpecScope SpecTree SpecDisk SpecProject.
From Verif Require Import TextFacts ScopeFacts TreeFacts PathFacts MergeFacts BuilderFacts DiskFacts SaveFacts ProjectFacts CliFacts.
Import ListNotations.

(** ** Configuration *)
Lemma config_settings r : let c := to_config r in
  cf_name c = rc_name r /\ cf_author c = rc_author r /\
  (forall s b, rc_settings r = Some s -> se_strip s = Some b -> cf_strip c = b) /\
  (forall s b, rc_settings r = Some s -> se_data s = Some b -> cf_data c = b) /\
  (forall s b, rc_settings r = Some s -> se_meta s = Some b -> cf_meta c = b) /\
  ((forall s b, rc_settings r = Some s -> se_strip s <> Some b) -> cf_strip c = true) /\
  ((forall s b, rc_settings r = Some s -> se_data s <> Some b) -> cf_data c = false) /\
  ((forall s b, rc_settings r = Some s -> se_meta s <> Some b) -> cf_meta c = false).
Proof.
  cbn. unfold setting. destruct (rc_settings r) as [[s1 s2 s3]|]; cbn.
  - repeat split.
    + intros s b E X; injection E as <-; cbn in X; now rewrite X.
    + intros s b E X; injection E as <-; cbn in X; now rewrite X.
    + intros s b E X; injection E as <-; cbn in X; now rewrite X.
    + intros H. destruct s1 as [b|]; [|reflexivity]. exfalso. now apply (H _ b eq_refl).
    + intros H. destruct s2 as [b|]; [|reflexivity]. exfalso. now apply (H _ b eq_refl).
    + intros H. destruct s3 as [b|]; [|reflexivity]. exfalso. now apply (H _ b eq_refl).
  - repeat split; intros; discriminate.
Qed.

(** ** Scripts *)
Lemma listed_filter f P l : (forall n, f n = true <-> P n) -> listed P l (filter f (script_files (Some (EDir l)))).
Proof.
  intros H. cbn [script_files]. induction l as [|[n e] l IH]; cbn [filter map]; [constructor|]. destruct e as [b| |]; cbn [snd].
  - cbn [map fst filter]. destruct (f n) eqn:F.
    + apply li_take; [now apply H|exact IH].
    + apply li_skip; [|exact IH]. left. intros X. apply H in X. congruence.
  - apply li_skip; [right; discriminate|exact IH].
  - apply li_skip; [right; discriminate|exact IH].
Qed.
Lemma is_pre_spec n : is_pre n = true <-> pre_name n.
Proof. unfold is_pre, pre_name. now rewrite orb_true_iff, !text_eqb_eq. Qed.
Lemma is_post_spec n : negb (is_pre n) && is_post n = true <-> post_name n.
Proof.
  unfold is_post, post_name. rewrite andb_true_iff, orb_true_iff, !text_eqb_eq. split; [tauto|]. intros H. split; [|exact H].
  destruct H as [-> | ->]; reflexivity.
Qed.
Lemma init_scripts r ps dir output mode d l : lookup (dir ++ [lit "scripts"]) d = Some (EDir l) ->
  listed pre_name l (cx_pre (init r ps dir output mode d)) /\ listed post_name l (cx_post (init r ps dir output mode d)).
Proof.
  intros L. unfold init. cbn [cx_pre cx_post]. rewrite L. split; [apply listed_filter, is_pre_spec|apply listed_filter, is_post_spec].
Qed.
Lemma init_no_scripts r ps dir output mode d : (forall l, lookup (dir ++ [lit "scripts"]) d <> Some (EDir l)) ->
  cx_pre (init r ps dir output mode d) = [] /\ cx_post (init r ps dir output mode d) = [].
Proof.
  intros N. unfold init. cbn [cx_pre cx_post]. destruct (lookup _ d) as [[|l|]|]; try (now split). exfalso. now apply (N l).
Qed.
Lemma run_scripts_stops sc l : forall d d1 n r, run_scripts sc l d = (d1, Some (CE_Script n r)) <-> stops sc l d n r d1.
Proof.
  induction l as [|x l IH]; intros d d1 n r; cbn [run_scripts].
  - split; [discriminate|]. intros ([|] & b & d0 & E & _); discriminate.
  - split.
    + destruct (sc x d) as [d2 rx] eqn:S. destruct rx.
      * intros E. apply IH in E. destruct E as (a & b & d0 & -> & R & E & N). exists (x :: a), b, d0. repeat split; try assumption. now apply ra_cons with d2.
      * intros E; injection E as -> -> <-. exists [], l, d. repeat split; [constructor|exact S|discriminate].
      * intros E; injection E as -> -> <-. exists [], l, d. repeat split; [constructor|exact S|discriminate].
    + intros ([|y a] & b & d0 & E & R & Q & N).
      * injection E as -> ->. inversion R; subst. rewrite Q. destruct r; [contradiction|reflexivity|reflexivity].
      * injection E as -> ->. inversion R as [|? ? ? d2 ? S R']; subst. rewrite S. apply IH. now exists a, b, d0.
Qed.
Lemma run_scripts_error sc l d d1 e : run_scripts sc l d = (d1, Some e) -> exists n r, e = CE_Script n r.
Proof.
  revert d. induction l as [|x l IH]; intros d; cbn [run_scripts]; [discriminate|]. destruct (sc x d) as [d2 rx]. destruct rx; [apply IH| |];
    intros E; injection E as _ <-; eauto.
Qed.
Lemma pre_stops m f c d n r d1 : stops (m_script m) (cx_pre c) d n r d1 -> cli_build m f c d = (c, d1, CErr (CE_Script n r)).
Proof. intros S. apply run_scripts_stops in S. unfold cli_build. now rewrite S. Qed.
Lemma meta_kind ser f st p d d' : save_metadata ser f st p d = (d', Ok tt) -> exists v, metadata_value st = Ok v /\ what p d' = KFile (ser v).
Proof.
  unfold save_metadata. destruct (metadata_value st) as [v| | |]; try discriminate. destruct (run_ops f _ d) as [d0 ok] eqn:R. destruct ok; [|discriminate]. intros E; injection E as ->.
  apply run_ops_cons in R. destruct R as (f' & d1 & R1 & R2). cbn in R2. injection R2 as <-. apply write_effect in R1. destruct R1 as [_ R1]. exists v. split; [reflexivity|].
  rewrite R1. destruct (path_eq p p); [reflexivity|congruence].
Qed.
Lemma exactly_same p l d d' : exactly p l d -> (forall q, what (p ++ q) d' = what (p ++ q) d) -> exactly p l d'.
Proof. intros X W q. rewrite W. apply X. Qed.
(** A build that gets to the post-build scripts. *)
Lemma reaches_post m f c d : fl_temp f = None -> (exists c' d', cli_build m f c d = (c', d', COk)) \/
    (exists c' d' n r, cli_build m f c d = (c', d', CErr (CE_Script n r)) /\ ~ stops (m_script m) (cx_pre c) d n r d') ->
  exists d1 d4 c', ran (m_script m) (cx_pre c) d d1 /\ saved_site m c' d1 d4 /\
    cli_build m f c d = match run_scripts (m_script m) (cx_post c) d4 with (d5, None) => (c', d5, COk) | (d5, Some e) => (c', d5, CErr e) end /\
    cx_dir c' = cx_dir c /\ output_dir c' = output_dir c.
Proof.
  intros FT H. unfold cli_build in *. rewrite FT in *. destruct (run_scripts _ (cx_pre c) d) as [d1 [e|]] eqn:R1.
  { exfalso. destruct H as [(c' & d' & E)|(c' & d' & n & r & E & N)]; [discriminate|]. injection E as -> -> ->. now apply run_scripts_stops in R1. }
  destruct (build_and_merge m c d1) as [st r] eqn:BM.
  destruct r as [[]| | |]; try (exfalso; destruct H as [(c' & d' & E)|(c' & d' & n & r & E & N)]; discriminate).
  destruct (merged_output _ _ _ _ BM) as (out & O & D & _). fold (output_dir c) in *.
  destruct (save _ st _ _) as [d3 r] eqn:S.
  destruct r as [[]| | |]; try (exfalso; destruct H as [(c' & d' & E)|(c' & d' & n & r & E & N)]; discriminate).
  destruct out as [|name ch src]; [discriminate|].
  set (w := if cf_meta _ then _ else _) in *.
  assert (W : forall d4 u, w = (d4, Ok u) -> saved_site m (set_stuart st c) d1 d4).
  { intros d4 [] E. exists (NDir name ch src), ch. cbn [set_stuart cx_stuart cx_dir]. split; [exact O|]. split; [reflexivity|]. subst w. split.
    - intros l DD SA NA. change (output_dir (set_stuart st c)) with (output_dir c) in *.
      pose proof (save_exactly _ _ _ _ _ _ _ l O eq_refl SA (remove_temp_distinct None _ _ DD ltac:(discriminate)) S) as X.
      destruct (cf_meta (st_config st)); [|injection E as <-; exact X]. apply (exactly_same _ _ d3); [exact X|]. intros q. apply (write_meta _ _ _ _ _ _ E).
      intros Q. apply NA. rewrite <- Q. apply above_app.
    - intros CM. rewrite CM in E. now apply meta_kind in E. }
  clearbody w. destruct w as [d4 r4]. destruct r4 as [u| | |]; try (exfalso; destruct H as [(c' & d' & E)|(c' & d' & n & r & E & N)]; discriminate).
  apply run_scripts_ran in R1. exists d1, d4, (set_stuart st c). split; [exact R1|]. split; [now apply (W d4 u)|]. now repeat split.
Qed.
Lemma script_errors m f c d c' d' n r : fl_temp f = None -> cli_build m f c d = (c', d', CErr (CE_Script n r)) ->
  stops (m_script m) (cx_pre c) d n r d' \/
  exists d1 d4, ran (m_script m) (cx_pre c) d d1 /\ saved_site m c' d1 d4 /\ stops (m_script m) (cx_post c) d4 n r d'.
Proof.
  intros FT B. destruct (run_scripts (m_script m) (cx_pre c) d) as [d1 [e|]] eqn:R1.
  - left. pose proof R1 as R. apply run_scripts_error in R. destruct R as (n' & r' & ->). apply run_scripts_stops in R1. pose proof (pre_stops m f c d n' r' d1 R1) as E. congruence.
  - right. destruct (reaches_post m f c d FT) as (d1' & d4 & c2 & R & S & E & _).
    { right. exists c', d', n, r. split; [exact B|]. intros X. apply run_scripts_stops in X. congruence. }
    rewrite B in E. destruct (run_scripts _ (cx_post c) d4) as [d5 [e|]] eqn:R5; [|discriminate]. injection E as -> -> <-. exists d1', d4. split; [exact R|]. split; [exact S|]. now apply run_scripts_stops.
Qed.
Lemma success_scripts m f c d c' d' : fl_temp f = None -> cli_build m f c d = (c', d', COk) ->
  exists d1 d4, ran (m_script m) (cx_pre c) d d1 /\ saved_site m c' d1 d4 /\ ran (m_script m) (cx_post c) d4 d'.
Proof.
  intros FT B. destruct (reaches_post m f c d FT) as (d1 & d4 & c2 & R & S & E & _); [left; eauto|].
  rewrite B in E. destruct (run_scripts _ (cx_post c) d4) as [d5 [e|]] eqn:R5; [discriminate|]. injection E as -> ->. exists d1, d4. split; [exact R|]. split; [exact S|]. now apply run_scripts_ran.
Qed.

(** ** Plugins *)
Lemma split_joined c t : match split_char c t with (h, r) => t = joined c h r end.
Proof.
  induction t as [|d t IH]; [reflexivity|]. cbn [split_char]. destruct (split_char c t) as [h r]. destruct (N.eqb_spec d c) as [->|NE]; cbn [joined app].
  - now rewrite IH.
  - destruct r; cbn [joined]; now rewrite IH.
Qed.
Lemma joined_split c r : forall h, ~ In c h -> Forall (fun k => ~ In c k) r -> split_char c (joined c h r) = (h, r).
Proof.
  induction r as [|k r IH]; intros h H F; cbn [joined]; [now apply split_char_nil|]. inversion F; subst. apply split_char_app; [exact H|]. now apply IH.
Qed.
Lemma skip_spec js s : skip_source js s = false <-> supported js s.
Proof.
  unfold skip_source, supported, ending. rewrite orb_false_iff, andb_false_iff, negb_false_iff, orb_false_iff.
  assert (E : forall e, ends_with e s = false <-> ~ exists a, s = a ++ e).
  { intros e. rewrite <- ends_with_spec. destruct (ends_with e s); split; congruence. }
  rewrite !E. tauto.
Qed.
Lemma tried_fun js ld name srcs d d1 : tried js ld name srcs d d1 -> forall b, load_sources js ld name (srcs ++ b) d = load_sources js ld name b d1.
Proof.
  induction 1 as [d|s l d d' N T IH|s l d d1 d' S L T IH]; intros b; [reflexivity| |]; cbn [app load_sources].
  - destruct (skip_source js s) eqn:K; [apply IH|]. apply skip_spec in K. contradiction.
  - apply skip_spec in S. rewrite S, L. apply IH.
Qed.
Lemma load_sources_spec js ld name srcs : forall d d' x, load_sources js ld name srcs d = (d', x) ->
  (x = LErr /\ tried js ld name srcs d d') \/
  (x <> LErr /\ exists a s b d1, srcs = a ++ s :: b /\ tried js ld name a d d1 /\ supported js s /\ ld name s d1 = (d', x)).
Proof.
  induction srcs as [|s srcs IH]; intros d d' x; cbn [load_sources].
  - intros E; injection E as <- <-. left. split; [reflexivity|constructor].
  - destruct (skip_source js s) eqn:K.
    + assert (N : ~ supported js s) by (intros S; apply skip_spec in S; congruence). intros E. apply IH in E. destruct E as [[-> T]|(NE & a & s0 & b & d1 & -> & T & S & L)].
      * left. split; [reflexivity|]. now apply tr_skip.
      * right. split; [exact NE|]. exists (s :: a), s0, b, d1. repeat split; try assumption; try apply S. now apply tr_skip.
    + apply skip_spec in K. destruct (ld name s d) as [d1 r] eqn:L.
      assert (C : r = LErr \/ r <> LErr) by (destruct r; [right|left|right]; congruence). destruct C as [->|NE].
      * intros E. apply IH in E. destruct E as [[-> T]|(NE & a & s0 & b & d2 & -> & T & S & L')].
        -- left. split; [reflexivity|]. now apply tr_fail with d1.
        -- right. split; [exact NE|]. exists (s :: a), s0, b, d2. repeat split; try assumption; try apply S. now apply tr_fail with d1.
      * intros E. assert (Q : (d1, r) = (d', x)) by (destruct r; [exact E|contradiction|exact E]). injection Q as -> ->. right. split; [exact NE|].
        exists [], s, srcs, d. repeat split; try assumption; try apply K. constructor.
Qed.
Lemma load_one js ld name src d d' x : loads_from js ld (name, src) d d' x <-> (let (h, r) := split_char 59%N src in load_sources js ld name (h :: r) d) = (d', x).
Proof.
  split.
  - inversion 1 as [name0 h r a s b d0 d1 d2 x0 N F E T S L NE|name0 h r d0 d1 N F T]; subst; rewrite (joined_split 59%N r h N F).
    + change (load_sources js ld name (h :: r) d = (d', x)). rewrite E. rewrite (tried_fun _ _ _ _ _ _ T). cbn [load_sources]. apply skip_spec in S. rewrite S, L. destruct x; [reflexivity|contradiction|reflexivity].
    + change (load_sources js ld name (h :: r) d = (d', LErr)). rewrite <- (app_nil_r (h :: r)). now rewrite (tried_fun _ _ _ _ _ _ T).
  - pose proof (split_joined 59%N src) as J. pose proof (split_char_spec 59%N src) as F. destruct (split_char 59%N src) as [h r]. destruct F as [F1 F2]. rewrite J. intros E.
    apply load_sources_spec in E. destruct E as [[-> T]|(NE & a & s & b & d1 & E & T & S & L)]; [now apply lf_none|now apply lf_first with a s b d1].
Qed.
Lemma load_total js ld dep d : exists d' x, loads_from js ld dep d d' x.
Proof. destruct dep as [name src]. destruct (let (h, r) := split_char 59%N src in load_sources js ld name (h :: r) d) as [d' x] eqn:E. exists d', x. now apply load_one. Qed.
Lemma plugins_loaded js ld deps : forall d d' ps, load_plugins js ld deps d = (d', LOk ps) <-> loads_all js ld deps d d' ps.
Proof.
  induction deps as [|[name src] deps IH]; intros d d' ps; cbn [load_plugins].
  - split; [intros E; injection E as <- <-; constructor|]. now inversion 1.
  - pose proof (fun d' x => proj1 (load_one js ld name src d d' x)) as L. pose proof (fun d' x => proj2 (load_one js ld name src d d' x)) as L'. split.
    + destruct (split_char 59%N src) as [h r]. destruct (load_sources js ld name (h :: r) d) as [d1 [ps1| |]]; try discriminate. destruct (load_plugins js ld deps d1) as [d2 [ps'| |]] eqn:E2; try discriminate.
      intros E; injection E as <- <-. apply la_more with d1; [now apply L'|]. now apply IH.
    + inversion 1 as [|? ? ? d1 ? ps1 ps2 H1 H2]; subst. apply L in H1. destruct (split_char 59%N src) as [h r]. rewrite H1. apply IH in H2. now rewrite H2.
Qed.
Lemma plugins_stopped js ld deps x : (forall ps, x <> LOk ps) -> forall d d', load_plugins js ld deps d = (d', x) <->
  exists a dep b d1 ps, deps = a ++ dep :: b /\ loads_all js ld a d d1 ps /\ loads_from js ld dep d1 d' x.
Proof.
  intros NO. induction deps as [|[name src] deps IH]; intros d d'; cbn [load_plugins].
  - split; [intros E; injection E as _ E; symmetry in E; now apply NO in E|]. intros (a & dep & b & ? & ? & E & _). destruct a; discriminate.
  - pose proof (fun d' x => proj1 (load_one js ld name src d d' x)) as L. pose proof (fun d' x => proj2 (load_one js ld name src d d' x)) as L'. split.
    + destruct (split_char 59%N src) as [h r]. destruct (load_sources js ld name (h :: r) d) as [d1 y] eqn:E1. specialize (L' _ _ eq_refl). destruct y as [ps1| |].
      * destruct (load_plugins js ld deps d1) as [d2 y] eqn:E2. intros E. assert (Q : load_plugins js ld deps d1 = (d', x)) by (rewrite E2; destruct y; [injection E as _ E; now symmetry in E; apply NO in E|exact E|exact E]).
        apply IH in Q. destruct Q as (a & dep & b & d3 & ps & -> & A & F). exists ((name, src) :: a), dep, b, d3, (ps1 ++ ps). split; [reflexivity|]. split; [now apply la_more with d1|exact F].
      * intros E. injection E as -> <-. exists [], (name, src), deps, d, []. split; [reflexivity|]. split; [constructor|exact L'].
      * intros E. injection E as -> <-. exists [], (name, src), deps, d, []. split; [reflexivity|]. split; [constructor|exact L'].
    + intros (a & dep & b & d1 & ps & E & A & F). destruct a as [|dep0 a]; cbn [app] in E; injection E as <- ->.
      * inversion A; subst. apply L in F. destruct (split_char 59%N src) as [h r]. rewrite F. destruct x; [now exfalso; apply (NO ps)|reflexivity|reflexivity].
      * inversion A as [|? ? ? d2 ? ps1 ps2 H1 H2]; subst. apply L in H1. destruct (split_char 59%N src) as [h r]. rewrite H1.
        assert (Q : load_plugins js ld (a ++ dep :: b) d2 = (d', x)) by (apply IH; exists a, dep, b, d1, ps2; now repeat split). rewrite Q. destruct x; [now exfalso; apply (NO ps)|reflexivity|reflexivity].
Qed.

(** ** Cleaning *)
Lemma clean_one_outside rm fl p d : (rm = rmtree \/ rm = rmfile) -> same_outside p d (fst (clean_one rm fl p d)).
Proof.
  intros RM q N. unfold clean_one. destruct (lookup p d) as [e|] eqn:L; [|reflexivity]. destruct fl as [junk|]; [now apply update_outside|].
  assert (U : what q (update p None d) = what q d) by now apply update_outside.
  destruct RM as [-> | ->]; unfold rmtree, rmfile; (destruct p as [|c p]; [reflexivity|]); rewrite L; destruct e; cbn [fst]; try reflexivity; exact U.
Qed.
Lemma clean_one_gone rm fl p d d' : (rm = rmtree \/ rm = rmfile) -> ent_distinct d -> clean_one rm fl p d = (d', true) ->
  ent_distinct d' /\ forall q, above p q -> what q d' = KNone.
Proof.
  intros RM D. unfold clean_one. destruct (lookup p d) as [e|] eqn:L.
  - destruct fl as [junk|]; [discriminate|]. intros E.
    assert (p <> [] /\ d' = update p None d) as [NE ->].
    { destruct RM as [-> | ->]; unfold rmtree, rmfile in E; (destruct p as [|c p]; [discriminate|]); rewrite L in E; destruct e; try discriminate; split; try discriminate; congruence. }
    split; [now apply update_distinct|]. intros q [r ->]. unfold what. now rewrite (remove_none p r d NE D).
  - intros E; injection E as <-. split; [exact D|]. intros q [r ->]. apply below_none. unfold what. now rewrite L.
Qed.
Lemma clean_outside fl dir d : lookup (dir ++ [lit "stuart.toml"]) d = None -> clean fl dir d = (d, false).
Proof. intros L. unfold clean. now rewrite L. Qed.
Lemma clean_same fl dir d q : ~ generated dir q -> what q (fst (clean fl dir d)) = what q d.
Proof.
  intros N. assert (N1 : ~ above (dir ++ [lit "dist"]) q) by (intros X; apply N; now left).
  assert (N2 : ~ above (dir ++ [lit "_build"]) q) by (intros X; apply N; right; now left).
  assert (N3 : ~ above (dir ++ [lit "metadata.json"]) q) by (intros X; apply N; right; now right).
  unfold clean. destruct (lookup _ d); [|reflexivity].
  pose proof (clean_one_outside rmtree (fl 0) (dir ++ [lit "dist"]) d (or_introl eq_refl) q N1) as W1. destruct (clean_one rmtree (fl 0) _ d) as [d1 [|]]; cbn [fst] in *; [|exact W1].
  pose proof (clean_one_outside rmtree (fl 1) (dir ++ [lit "_build"]) d1 (or_introl eq_refl) q N2) as W2. destruct (clean_one rmtree (fl 1) _ d1) as [d2 [|]]; cbn [fst] in *; [|now rewrite W2].
  rewrite (clean_one_outside rmfile (fl 2) (dir ++ [lit "metadata.json"]) d2 (or_intror eq_refl) q N3). now rewrite W2.
Qed.
Lemma snoc_apart dir (a b : text) q : a <> b -> above (dir ++ [a]) q -> ~ above (dir ++ [b]) q.
Proof.
  intros NE [r ->] [s E]. rewrite <- !app_assoc in E. apply app_inv_head in E. injection E as E _. contradiction.
Qed.
Lemma clean_gone fl dir d d' : ent_distinct d -> clean fl dir d = (d', true) -> forall q, generated dir q -> what q d' = KNone.
Proof.
  intros D. unfold clean. destruct (lookup _ d); [|discriminate].
  destruct (clean_one rmtree (fl 0) (dir ++ [lit "dist"]) d) as [d1 [|]] eqn:C1; [|discriminate]. apply clean_one_gone in C1; [|now left|exact D]. destruct C1 as [D1 G1].
  pose proof (clean_one_outside rmtree (fl 1) (dir ++ [lit "_build"]) d1 (or_introl eq_refl)) as W2.
  destruct (clean_one rmtree (fl 1) (dir ++ [lit "_build"]) d1) as [d2 [|]] eqn:C2; [|discriminate]. apply clean_one_gone in C2; [|now left|exact D1]. destruct C2 as [D2 G2].
  intros C3. pose proof (clean_one_outside rmfile (fl 2) (dir ++ [lit "metadata.json"]) d2 (or_intror eq_refl)) as W3. rewrite C3 in W3. cbn [fst] in W2, W3.
  apply clean_one_gone in C3; [|now right|exact D2]. destruct C3 as [D3 G3]. intros q [G|[G|G]].
  - rewrite W3, W2; [now apply G1| |]; (eapply snoc_apart; [|exact G]; intros X; discriminate X).
  - rewrite W3; [now apply G2|]. eapply snoc_apart; [|exact G]; intros X; discriminate X.
  - now apply G3.
Qed.
Lemma clean_one_works rm p d : (rm = rmtree /\ what p d = KDir \/ rm = rmfile /\ (exists b, what p d = KFile b) \/ what p d = KNone) -> p <> [] ->
  exists d', clean_one rm None p d = (d', true).
Proof.
  intros H NE. unfold clean_one. unfold what in H. destruct (lookup p d) as [e|] eqn:L; [|eauto].
  destruct H as [[-> H]|[[-> [b H]]|H]]; destruct e; try discriminate; unfold rmtree, rmfile; (destruct p; [contradiction|]); rewrite L; eauto.
Qed.
Lemma clean_works fl dir d : (forall i, fl i = None) -> what (dir ++ [lit "stuart.toml"]) d <> KNone ->
  (what (dir ++ [lit "dist"]) d = KNone \/ what (dir ++ [lit "dist"]) d = KDir) ->
  (what (dir ++ [lit "_build"]) d = KNone \/ what (dir ++ [lit "_build"]) d = KDir) ->
  (what (dir ++ [lit "metadata.json"]) d = KNone \/ exists b, what (dir ++ [lit "metadata.json"]) d = KFile b) ->
  exists d', clean fl dir d = (d', true).
Proof.
  intros NF T A B C. unfold clean. rewrite !NF. destruct (lookup _ d) eqn:L; [|unfold what in T; rewrite L in T; contradiction].
  assert (NE : forall x, dir ++ [x] <> []) by (intros x E; destruct dir; discriminate E).
  assert (AP : forall x y, x <> y -> ~ above (dir ++ [x]) (dir ++ [y])) by (intros x y N X; apply (snoc_apart dir y x (dir ++ [y])); [congruence|exists []; now rewrite app_nil_r|exact X]).
  destruct (clean_one_works rmtree (dir ++ [lit "dist"]) d) as [d1 E1]; [tauto|apply NE|]. rewrite E1.
  pose proof (clean_one_outside rmtree None (dir ++ [lit "dist"]) d (or_introl eq_refl)) as W1. rewrite E1 in W1. cbn [fst] in W1.
  destruct (clean_one_works rmtree (dir ++ [lit "_build"]) d1) as [d2 E2]; [rewrite W1 by (apply AP; discriminate); tauto|apply NE|]. rewrite E2.
  pose proof (clean_one_outside rmtree None (dir ++ [lit "_build"]) d1 (or_introl eq_refl)) as W2. rewrite E2 in W2. cbn [fst] in W2.
  apply clean_one_works; [rewrite W2, W1 by (apply AP; discriminate); tauto|apply NE].
Qed.
