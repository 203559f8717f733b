(** AgainFacts.v -- builds of the same sources (C66, C67). *)

From Coq Require Import String List NArith ZArith Bool Lia.
From Verif Require Import Text Json Base Syntax Parse Tree Interp Build Disk Cli SpecScope SpecTree SpecDisk SpecProject.
From Verif Require Import TextFacts ScopeFacts TreeFacts PathFacts DiskFacts SaveFacts ProjectFacts CliFacts.
Import ListNotations.

(** ** Paths apart *)
Lemma apart_cons c p q : apart (c :: p) (c :: q) -> apart p q.
Proof. intros [A B]. split; intros H; [apply A|apply B]; now apply above_cons. Qed.
Lemma update_apart p : forall q x d, apart p q -> lookup q (update p x d) = lookup q d.
Proof.
  induction p as [|c p IH]; intros q x d A; [exfalso; apply (proj1 A); now exists q|]. destruct q as [|k q]; [exfalso; apply (proj2 A); now exists (c :: p)|].
  destruct d as [b|l|]; try reflexivity. rewrite update_cons. destruct (list_eq_dec N.eq_dec c k) as [->|NE].
  - apply apart_cons in A. destruct p as [|c' p']; [exfalso; apply (proj1 A); now exists q|].
    destruct (assoc k l) as [e|] eqn:E; [|reflexivity]. cbn [lookup]. rewrite assoc_set, text_eqb_refl, E. now apply IH.
  - assert (T : text_eqb c k = false) by (now apply text_eqb_neq). destruct p as [|c' p'].
    + destruct x as [e|]; cbn [lookup]; [now rewrite assoc_set, T|rewrite assoc_remove_other by congruence; reflexivity].
    + destruct (assoc c l) as [e|]; [|reflexivity]. cbn [lookup]. now rewrite assoc_set, T.
Qed.
Lemma apart_below p r q : apart p q -> apart (p ++ r) q.
Proof.
  intros [A B]. split; intros H.
  - apply A. now apply above_trans with (p ++ r); [apply above_app|].
  - destruct H as [s H]. revert q A B H. induction p as [|c p IH]; intros q A B H; [apply A; now exists q|]. destruct q as [|k q]; [apply B; now exists (c :: p)|].
    cbn [app] in H. injection H as -> H. apply (IH q); [intros X; apply A; now apply above_cons|intros X; apply B; now apply above_cons|exact H].
Qed.
Lemma apart_sym p q : apart p q -> apart q p.
Proof. intros [A B]. now split. Qed.
Lemma run_op_apart o d d' q : run_op o d = Some d' -> apart (op_path o) q -> lookup q d' = lookup q d.
Proof.
  intros R A. destruct o as [p|p|p|p b]; cbn [run_op op_path] in *.
  - destruct (is_edir (lookup p d)); [|now injection R as <-]. unfold rmtree in R. destruct p as [|c p]; [discriminate|]. destruct (lookup (c :: p) d) as [[|l|]|]; try discriminate. injection R as <-. exact (update_apart (c :: p) q None d A).
  - unfold mkdir in R. destruct (lookup p d); [discriminate|]. destruct (is_edir _); [|discriminate]. injection R as <-. now apply update_apart.
  - unfold mkdir in R. destruct (lookup p d); [now injection R as <-|]. destruct (is_edir _); [|discriminate]. injection R as <-. now apply update_apart.
  - unfold write_file in R. destruct (lookup p d) as [[|l|]|]; try discriminate; [injection R as <-; now apply update_apart|]. destruct (is_edir _); [|discriminate]. injection R as <-. now apply update_apart.
Qed.
Lemma run_ops_apart ops q : Forall (fun o => apart (op_path o) q) ops -> forall d d', run_ops None ops d = (d', true) -> lookup q d' = lookup q d.
Proof.
  induction ops as [|o ops IH]; intros F d d' R; [cbn in R; now injection R as <-|]. inversion F as [|? ? F1 F2]; subst.
  cbn [run_ops] in R. destruct (run_op o d) as [d1|] eqn:R1; [|discriminate]. rewrite (IH F2 _ _ R). now apply run_op_apart with o.
Qed.

(** ** Names stay distinct *)
Lemma run_op_distinct o d d' : run_op o d = Some d' -> ent_distinct d -> ent_distinct d'.
Proof.
  intros R D. assert (X : forall p x, (forall e, x = Some e -> ent_distinct e) -> ent_distinct (update p x d)) by (intros p x; now apply update_distinct).
  assert (XF : forall b e, Some (EFile b) = Some e -> ent_distinct e) by (intros b e E; injection E as <-; constructor).
  assert (XD : forall e, Some (EDir []) = Some e -> ent_distinct e) by (intros e E; injection E as <-; constructor; [constructor|constructor]).
  destruct o as [p|p|p|p b]; cbn [run_op] in *.
  - destruct (is_edir (lookup p d)); [|now injection R as <-]. unfold rmtree in R. destruct p as [|c p]; [discriminate|]. destruct (lookup (c :: p) d) as [[|l|]|]; try discriminate. injection R as <-. apply (X (c :: p) None). discriminate.
  - unfold mkdir in R. destruct (lookup p d); [discriminate|]. destruct (is_edir _); [|discriminate]. injection R as <-. now apply X.
  - unfold mkdir in R. destruct (lookup p d); [now injection R as <-|]. destruct (is_edir _); [|discriminate]. injection R as <-. now apply X.
  - unfold write_file in R. destruct (lookup p d) as [[|l|]|]; try discriminate; [injection R as <-; apply X, XF|]. destruct (is_edir _); [|discriminate]. injection R as <-. apply X, XF.
Qed.
Lemma run_ops_distinct ops : forall d d', run_ops None ops d = (d', true) -> ent_distinct d -> ent_distinct d'.
Proof.
  induction ops as [|o ops IH]; intros d d' R D; [cbn in R; now injection R as <-|]. cbn [run_ops] in R. destruct (run_op o d) as [d1|] eqn:R1; [|discriminate].
  apply (IH _ _ R). now apply (run_op_distinct o d).
Qed.
Lemma save_distinct st p d d' : save None st p d = (d', Ok tt) -> ent_distinct d -> ent_distinct d'.
Proof.
  intros SV. unfold save in SV. destruct (st_output st) as [out|]; [|discriminate]. destruct (save_ops _ _ _) as [ops|]; [|discriminate].
  destruct (run_ops None ops d) as [d0 ok] eqn:R. destruct ok; [|discriminate]. injection SV as ->. now apply (run_ops_distinct _ _ _ R).
Qed.

(** ** Calls below a directory *)
Lemma update_sub p : forall q x d e, q <> [] -> lookup p d = Some e -> lookup p (update (p ++ q) x d) = Some (update q x e).
Proof.
  induction p as [|c p IH]; intros q x d e NE L; [cbn in L; now injection L as <-|]. destruct d as [b|l|]; try discriminate. cbn [lookup] in L.
  destruct (assoc c l) as [e0|] eqn:A; [|discriminate]. cbn [app]. rewrite update_cons, A. destruct (p ++ q) as [|k r] eqn:PQ; [apply app_eq_nil in PQ; destruct PQ; contradiction|].
  cbn [lookup]. rewrite assoc_set, text_eqb_refl, <- PQ. now apply IH.
Qed.
Lemma parent_below p q : q <> [] -> parent (p ++ q) = p ++ parent q.
Proof. intros NE. unfold parent. now apply removelast_app. Qed.
Lemma is_dir_update q x l : q <> [] -> exists l', update q x (EDir l) = EDir l'.
Proof. destruct q as [|c q]; [contradiction|]. intros _. rewrite update_cons. destruct q; [destruct x; eauto|]. destruct (assoc c l); eauto. Qed.
Lemma op_below p q x d l : lookup p d = Some (EDir l) ->
  match run_op (op_of [] (q, x)) (EDir l) with
  | Some e => exists d' l', e = EDir l' /\ run_op (op_of p (q, x)) d = Some d' /\ lookup p d' = Some (EDir l')
  | None => run_op (op_of p (q, x)) d = None
  end.
Proof.
  intros L. assert (LQ : lookup (p ++ q) d = lookup q (EDir l)) by (rewrite lookup_app; now rewrite L). unfold op_of. cbn [fst snd app].
  destruct q as [|k q].
  - rewrite app_nil_r in *. destruct x as [b|]; cbn [run_op].
    + unfold write_file. now rewrite LQ.
    + unfold mkdir. rewrite LQ. cbn. exists d, l. now repeat split.
  - assert (NE : k :: q <> []) by discriminate. assert (PQ : lookup (parent (p ++ k :: q)) d = lookup (parent (k :: q)) (EDir l)) by (rewrite (parent_below p _ NE), lookup_app; now rewrite L).
    generalize dependent (k :: q). clear k q. intros q LQ NE PQ.
    assert (UP : forall z, exists d' l', update q z (EDir l) = EDir l' /\ update (p ++ q) z d = d' /\ lookup p d' = Some (EDir l')).
    { intros z. destruct (is_dir_update q z l NE) as [l' U]. exists (update (p ++ q) z d), l'. split; [exact U|]. split; [reflexivity|]. rewrite (update_sub p q z d _ NE L). now rewrite U. }
    destruct x as [b|]; cbn [run_op].
    + unfold write_file. rewrite LQ, PQ. destruct (UP (Some (EFile b))) as (d' & l' & U1 & U2 & U3). destruct (lookup q (EDir l)) as [[|l0|]|]; try reflexivity.
      * exists d', l'. rewrite U2. now split.
      * destruct (is_edir _); [|reflexivity]. exists d', l'. rewrite U2. now split.
    + unfold mkdir. rewrite LQ, PQ. destruct (UP (Some (EDir []))) as (d' & l' & U1 & U2 & U3). destruct (lookup q (EDir l)) as [e0|].
      * exists d, l. now repeat split.
      * destruct (is_edir _); [|reflexivity]. exists d', l'. rewrite U2. now split.
Qed.
Lemma ops_below p es : forall f d l d1, lookup p d = Some (EDir l) -> run_ops f (map (op_of p) es) d = (d1, true) ->
  exists l1, run_ops None (map (op_of []) es) (EDir l) = (EDir l1, true) /\ lookup p d1 = Some (EDir l1).
Proof.
  induction es as [|[q x] es IH]; intros f d l d1 L R; [cbn in *; injection R as <-; now exists l|].
  cbn [map] in R. apply run_ops_cons in R. destruct R as (f' & d2 & R1 & R2). pose proof (op_below p q x d l L) as B. cbn [map run_ops].
  destruct (run_op (op_of [] (q, x)) (EDir l)) as [e|]; [|congruence]. destruct B as (d' & l' & -> & B1 & B2). assert (d' = d2) by congruence. subst d'. now apply (IH f' d2).
Qed.
Lemma ops_above p es : forall d l l1, lookup p d = Some (EDir l) -> run_ops None (map (op_of []) es) (EDir l) = (EDir l1, true) ->
  exists d1, run_ops None (map (op_of p) es) d = (d1, true) /\ lookup p d1 = Some (EDir l1).
Proof.
  induction es as [|[q x] es IH]; intros d l l1 L R; [cbn in *; injection R as <-; now exists d|].
  cbn [map run_ops] in *. pose proof (op_below p q x d l L) as B. destruct (run_op (op_of [] (q, x)) (EDir l)) as [e|]; [|discriminate].
  destruct B as (d' & l' & -> & B1 & B2). rewrite B1. now apply (IH d' l').
Qed.

(** ** Saving the same tree *)
Lemma fresh_dir p d d1 d2 : run_op (ORmTreeIfDir p) d = Some d1 -> run_op (OMkDir p) d1 = Some d2 -> lookup p d2 = Some (EDir []).
Proof.
  intros _ R2. cbn [run_op] in R2. unfold mkdir in R2. destruct (lookup p d1) eqn:L; [discriminate|]. destruct (is_edir (lookup (parent p) d1)) eqn:ED; [|discriminate].
  assert (d2 = update p (Some (EDir [])) d1) by congruence. subst d2. assert (NE : p <> []) by (intros ->; discriminate L). apply is_edir_some in ED. destruct ED as [l ED]. now apply update_at with l.
Qed.
Lemma make_fresh p d : ent_distinct d -> p <> [] -> what (parent p) d = KDir -> what p d = KNone \/ what p d = KDir ->
  exists d1 d2, run_op (ORmTreeIfDir p) d = Some d1 /\ run_op (OMkDir p) d1 = Some d2.
Proof.
  intros D NE PD W. assert (NA : ~ above p (parent p)).
  { intros [r E]. apply (f_equal (@length text)) in E. destruct p as [|c p _] using rev_ind; [contradiction|]. unfold parent in E. rewrite removelast_last, !app_length in E. cbn in E. lia. }
  assert (PE : forall x, is_edir (lookup (parent p) (update p x d)) = true) by (intros x; apply is_edir_spec; change (what (parent p) (update p x d) = KDir); now rewrite update_outside).
  cbn [run_op]. destruct W as [W|W].
  - replace (is_edir (lookup p d)) with false by (unfold what in W; destruct (lookup p d) as [[|l|]|]; try discriminate; reflexivity). exists d. eexists. split; [reflexivity|]. unfold mkdir.
    apply kind_none in W. rewrite W. apply is_edir_spec in PD. rewrite PD. reflexivity.
  - assert (E := proj2 (is_edir_spec _) W). rewrite E. unfold rmtree. destruct p as [|c p]; [contradiction|]. apply is_edir_some in E. destruct E as [l E]. rewrite E. do 2 eexists. split; [reflexivity|]. unfold mkdir.
    replace (lookup (c :: p) (update (c :: p) None d)) with (@None ent) by (symmetry; rewrite <- (app_nil_r (c :: p)) at 1; now apply remove_none). now rewrite PE.
Qed.
Lemma save_again f st p d d1 p' d' out : st_output st = Some out -> tame_tree (st_config st) out -> save f st p d = (d1, Ok tt) ->
  ent_distinct d' -> p' <> [] -> what (parent p') d' = KDir -> what p' d' = KNone \/ what p' d' = KDir ->
  exists d1' l, save None st p' d' = (d1', Ok tt) /\ lookup p d1 = Some (EDir l) /\ lookup p' d1' = Some (EDir l).
Proof.
  intros O T SV D' NE PD W. unfold save in *. rewrite O in *. destruct out as [|name ch src]; [discriminate|]. cbn [save_ops] in *.
  destruct (tame_saves_all (st_config st) ch (fun c m I J => T ch c m eq_refl I J) []) as [l L]. assert (L' := L).
  apply saves_ops with (p := p) in L. apply saves_ops with (p := p') in L'. rewrite app_nil_r in L, L'. rewrite L in SV. rewrite L'.
  destruct (run_ops f _ d) as [d0 ok] eqn:R. destruct ok; [|discriminate]. injection SV as ->.
  apply run_ops_cons in R. destruct R as (f1 & d2 & R1 & R). apply run_ops_cons in R. destruct R as (f2 & d3 & R2 & R).
  destruct (ops_below p l f2 d3 [] d1 (fresh_dir _ _ _ _ R1 R2) R) as (l1 & B1 & B2).
  destruct (make_fresh p' d' D' NE PD W) as (d2' & d3' & R1' & R2'). destruct (ops_above p' l d3' [] l1 (fresh_dir _ _ _ _ R1' R2') B1) as (d1' & A1 & A2).
  exists d1', l1. cbn [run_ops]. rewrite R1', R2', A1. now repeat split.
Qed.

(** ** Building the same sources *)
Lemma build_same h osenv mode sd st st' : st_config st' = st_config st -> st_plugins st' = st_plugins st ->
  snd (build h osenv mode sd st') = snd (build h osenv mode sd st) /\
  (snd (build h osenv mode sd st) = Ok tt -> fst (build h osenv mode sd st') = fst (build h osenv mode sd st)).
Proof.
  intros C P. unfold build. rewrite C, P. destruct (node_new _ _ _ _ _ _); try (now split; [|discriminate]).
  destruct (preprocess _ _); try (now split; [|discriminate]). destruct (build_tree _ _ _ _) as [[i o]| | |]; now split.
Qed.
Lemma merge_dirs_same h dir names d d' : (forall n, In n names -> lookup (dir ++ [n]) d' = lookup (dir ++ [n]) d) -> forall st, merge_dirs h dir names d' st = merge_dirs h dir names d st.
Proof.
  induction names as [|n names IH]; intros L st; [reflexivity|]. cbn [merge_dirs]. rewrite (L n (or_introl eq_refl)).
  assert (IH' := fun st => IH (fun m I => L m (or_intror I)) st). destruct (lookup (dir ++ [n]) d) as [e|]; [|apply IH'].
  destruct (node_new _ _ _ _ _ _) as [t| | |]; try reflexivity. destruct (merge_output t st) as [st1 [u| | |]]; try reflexivity. apply IH'.
Qed.
Lemma bam_same m c c' d d' : same_project c c' -> same_sources (cx_dir c) d d' ->
  snd (build_and_merge m c' d') = snd (build_and_merge m c d) /\
  (snd (build_and_merge m c d) = Ok tt -> fst (build_and_merge m c' d') = fst (build_and_merge m c d)).
Proof.
  intros (C & P & M & D) SS. unfold build_and_merge. rewrite M, D.
  assert (E : source_at (cx_dir c ++ [lit "content"]) d' = source_at (cx_dir c ++ [lit "content"]) d) by (unfold source_at; rewrite (SS (lit "content")); [reflexivity|now left]). rewrite E.
  destruct (build_same (m_host m) (m_osenv m) (cx_mode c) (source_at (cx_dir c ++ [lit "content"]) d) (cx_stuart c) (cx_stuart c') C P) as [B1 B2].
  destruct (build _ _ _ _ (cx_stuart c)) as [st r], (build _ _ _ _ (cx_stuart c')) as [st' r']. cbn [fst snd] in *. subst r'.
  destruct r as [u| | |]; try (now split; [|discriminate]). destruct u. rewrite (B2 eq_refl). rewrite (merge_dirs_same _ _ _ d d'); [now split|].
  intros n I. apply SS. now right.
Qed.
Lemma bam_ok m c c' d d' st : same_project c c' -> same_sources (cx_dir c) d d' -> build_and_merge m c d = (st, Ok tt) -> build_and_merge m c' d' = (st, Ok tt).
Proof.
  intros SP SS B. destruct (bam_same m c c' d d' SP SS) as [B1 B2]. rewrite B in B1, B2. cbn [fst snd] in *. specialize (B2 eq_refl). destruct (build_and_merge m c' d') as [st' r']. cbn in *. now subst.
Qed.
Lemma exactly_what p p' l d d' q : exactly p l d -> exactly p' l d' -> what (p ++ q) d = what (p' ++ q) d'.
Proof.
  intros X X'. destruct (X q) as (F & K & NO), (X' q) as (F' & K' & NO'). destruct (what (p ++ q) d) as [|b| |] eqn:W.
  - destruct (what (p' ++ q) d') as [|b'| |] eqn:W'; [reflexivity| | |contradiction].
    + pose proof (proj1 (F' b') eq_refl) as Z. apply F in Z. discriminate.
    + pose proof (proj1 K' eq_refl) as Z. apply K in Z. discriminate.
  - pose proof (proj1 (F b) eq_refl) as Z. apply F' in Z. now symmetry.
  - pose proof (proj1 K eq_refl) as Z. apply K' in Z. now symmetry.
  - contradiction.
Qed.
Lemma ran_fun sc l d d1 d2 : ran sc l d d1 -> ran sc l d d2 -> d1 = d2.
Proof. intros A B. apply run_scripts_ran in A, B. congruence. Qed.
Lemma ran_leave sc l P d d' q : ran sc l d d' -> scripts_leave sc l P -> P q -> what q d' = what q d.
Proof. intros R SL H. apply run_scripts_ran in R. pose proof (run_scripts_leave _ _ _ d q SL H) as W. now rewrite R in W. Qed.
Lemma same_site m f f' c c' d d' e e' c1 d1 c1' d1' : same_project c c' -> ran (m_script m) (cx_pre c) d e -> ran (m_script m) (cx_pre c') d' e' ->
  same_sources (cx_dir c) e e' -> ent_distinct e -> ent_distinct e' -> inward_project c e ->
  (forall x, fl_temp f = Some (Some x) -> ent_distinct x) -> (forall x, fl_temp f' = Some (Some x) -> ent_distinct x) ->
  cli_build m f c d = (c1, d1, COk) -> cli_build m f' c' d' = (c1', d1', COk) ->
  ~ above (output_dir c) (cx_dir c ++ [lit "metadata.json"]) -> ~ above (output_dir c') (cx_dir c ++ [lit "metadata.json"]) ->
  scripts_leave (m_script m) (cx_post c) (above (output_dir c)) -> scripts_leave (m_script m) (cx_post c') (above (output_dir c')) ->
  forall q, what (output_dir c ++ q) d1 = what (output_dir c' ++ q) d1'.
Proof.
  intros SP R R' SS D D' IP FT FT' B B' NM NM' SL SL' q.
  destruct (build_saved _ _ _ _ _ _ B) as (e0 & st & d3 & d4 & out & R0 & BM & _ & O & SV & W & R2). rewrite (ran_fun _ _ _ _ _ R0 R) in *. clear e0 R0.
  destruct (build_saved _ _ _ _ _ _ B') as (e0 & st' & d3' & d4' & out' & R0 & BM' & _ & O' & SV' & W' & R2'). rewrite (ran_fun _ _ _ _ _ R0 R') in *. clear e0 R0.
  pose proof (bam_ok _ _ _ _ _ _ SP SS BM) as BM2. rewrite BM2 in BM'. injection BM' as <-. destruct (merged_tame _ _ _ _ BM IP) as (out2 & O2 & T). assert (out2 = out) by congruence. subst out2.
  assert (exists ch, n_children out = Some ch) as [ch C]. { destruct (merged_output _ _ _ _ BM) as (out2 & O3 & DD & _). assert (out2 = out) by congruence. subst out2. destruct out; [discriminate|]. eexists; reflexivity. }
  destruct (tame_saves_all (st_config st) ch (fun c0 m0 I J => T ch c0 m0 C I J) []) as [l L].
  pose proof (save_exactly _ _ _ _ _ _ _ _ O C L (remove_temp_distinct _ _ _ D FT) SV) as X. pose proof (save_exactly _ _ _ _ _ _ _ _ O C L (remove_temp_distinct _ _ _ D' FT') SV') as X'.
  rewrite (ran_leave _ _ _ _ _ _ R2 SL (above_app _ _)), (ran_leave _ _ _ _ _ _ R2' SL' (above_app _ _)). rewrite W, W'.
  - now apply (exactly_what _ _ l).
  - intros E. apply NM'. destruct SP as (_ & _ & _ & SP). rewrite SP in E. rewrite <- E. apply above_app.
  - intros E. apply NM. rewrite <- E. apply above_app.
Qed.

(** ** Building again *)
Lemma idle_ran m c l d : idle_scripts m c -> incl l (cx_pre c ++ cx_post c) -> run_scripts (m_script m) l d = (d, None).
Proof.
  intros I S. induction l as [|n l IH]; [reflexivity|]. cbn [run_scripts]. rewrite I by (apply S; now left). apply IH. intros x X. apply S. now right.
Qed.
Lemma siblings_apart dir (a b : text) : a <> b -> apart (dir ++ [a]) (dir ++ [b]).
Proof.
  intros NE. split; intros H; apply above_cancel, proj1 in H || (apply (proj1 (above_cancel _ _ _)) in H); destruct H as [r H]; cbn [app] in H; apply (f_equal (@hd_error text)) in H; cbn in H; congruence.
Qed.
Lemma save_apart st p d d' out q : st_output st = Some out -> tame_tree (st_config st) out -> save None st p d = (d', Ok tt) -> apart p q -> lookup q d' = lookup q d.
Proof.
  intros O T SV A. unfold save in SV. rewrite O in SV. destruct out as [|name ch src]; [discriminate|]. cbn [save_ops] in SV.
  destruct (tame_saves_all (st_config st) ch (fun c m I J => T ch c m eq_refl I J) []) as [l L]. apply saves_ops with (p := p) in L. rewrite app_nil_r in L. rewrite L in SV.
  destruct (run_ops None _ d) as [d0 ok] eqn:R. destruct ok; [|discriminate]. injection SV as ->. refine (run_ops_apart _ q _ _ _ R).
  constructor; [exact A|]. constructor; [exact A|]. apply Forall_forall. intros o I. apply in_map_iff in I. destruct I as ([r [b|]] & <- & _); now apply apart_below.
Qed.
Lemma build_again m c d c1 d1 c2 : cli_build m no_faults c d = (c1, d1, COk) -> c2 = c \/ c2 = c1 -> idle_scripts m c ->
  ent_distinct d -> inward_project c d -> lookup (cx_dir c ++ [lit "temp"]) d = None ->
  Forall (fun n => apart (output_dir c) (cx_dir c ++ [n])) [lit "content"; lit "static"; lit "temp"; lit "metadata.json"] ->
  exists d2, cli_build m no_faults c2 d1 = (c1, d2, COk) /\ (forall q, what q d2 = what q d1) /\
    ent_distinct d1 /\ same_sources (cx_dir c) d d1.
Proof.
  intros B C2 ID D IP NT AP. inversion AP as [|? ? A1 AP1]; subst. inversion AP1 as [|? ? A2 AP2]; subst. inversion AP2 as [|? ? A3 AP3]; subst. inversion AP3 as [|? ? A4 _]; subst. clear AP AP1 AP2 AP3.
  unfold cli_build in B. rewrite (idle_ran m c (cx_pre c) d ID) in B by (intros x X; apply in_app_iff; now left).
  destruct (build_and_merge m c d) as [st r] eqn:BM. destruct r as [[]| | |]; try discriminate. cbn [fl_temp fl_save fl_meta no_faults] in B.
  assert (RT : forall x, lookup (cx_dir c ++ [lit "temp"]) x = None -> remove_temp None (cx_dir c ++ [lit "temp"]) x = x).
  { intros x E. unfold remove_temp, rmtree. destruct (cx_dir c ++ [lit "temp"]); [reflexivity|]. now rewrite E. }
  rewrite (RT d NT) in B. destruct (merged_tame _ _ _ _ BM IP) as (out & O & T). fold (output_dir c) in B.
  destruct (save None st (output_dir c) d) as [d3 r] eqn:SV. destruct r as [[]| | |]; try discriminate.
  assert (D3 : ent_distinct d3) by (now apply (save_distinct st (output_dir c) d)).
  assert (Cfg : st_config st = st_config (cx_stuart c) /\ st_plugins st = st_plugins (cx_stuart c)) by (destruct (merged_output _ _ _ _ BM) as (? & _ & _ & Q1 & Q2 & _); now split).
  set (meta := cx_dir c ++ [lit "metadata.json"]) in *.
  (* the metadata file *)
  assert (MT : exists d4, (if cf_meta (st_config st) then save_metadata (m_ser m) None st meta d3 else (d3, Ok tt)) = (d4, Ok tt) /\
    (forall q, apart meta q -> lookup q d4 = lookup q d3) /\ ent_distinct d4 /\
    ((d4 = d3 /\ cf_meta (st_config st) = false) \/ (exists b, cf_meta (st_config st) = true /\ (forall x, save_metadata (m_ser m) None st meta x = (let (y, ok) := run_ops None [OWrite meta b] x in (y, if ok then Ok tt else Err (E_Fs FE_Write)))) /\
       what meta d4 = KFile b /\ forall q, q <> meta -> what q d4 = what q d3))).
  { destruct (cf_meta (st_config st)); [|exists d3; repeat split; try assumption; now left].
    destruct (save_metadata (m_ser m) None st meta d3) as [d4 r] eqn:SM. destruct r as [[]| | |]; try discriminate. exists d4. split; [reflexivity|].
    unfold save_metadata in SM. destruct (metadata_value st) as [v| | |] eqn:MV; try discriminate. destruct (run_ops None [OWrite meta (m_ser m v)] d3) as [d0 ok] eqn:R. destruct ok; [|discriminate]. injection SM as ->.
    cbn [run_ops] in R. destruct (run_op (OWrite meta (m_ser m v)) d3) as [d5|] eqn:RO; [|discriminate]. injection R as ->. split; [intros q Q; now apply (run_op_apart _ _ _ q RO)|].
    split; [now apply (run_op_distinct _ _ _ RO)|]. right. exists (m_ser m v). split; [reflexivity|]. split.
    - intros x. unfold save_metadata. now rewrite MV.
    - destruct (write_effect _ _ _ _ RO) as [_ WE]. split; [rewrite WE; destruct (path_eq meta meta); [reflexivity|contradiction]|]. intros q N. rewrite WE. destruct (path_eq meta q); [congruence|reflexivity]. }
  destruct MT as (d4 & MT & L4 & D4 & MC). rewrite MT in B. rewrite (idle_ran m c (cx_post c) d4 ID) in B by (intros x X; apply in_app_iff; now right).
  injection B as <- <-.
  assert (LS : forall n, In n [lit "content"; lit "static"; lit "temp"] -> lookup (cx_dir c ++ [n]) d4 = lookup (cx_dir c ++ [n]) d).
  { intros n I. rewrite L4 by (apply siblings_apart; destruct I as [<-|[<-|[<-|[]]]]; discriminate). apply (save_apart st (output_dir c) d d3 out); try assumption. destruct I as [<-|[<-|[<-|[]]]]; assumption. }
  assert (SP : same_project c c2). { destruct C2 as [-> | ->]; [now repeat split|]. unfold same_project, set_stuart. cbn [cx_stuart cx_mode cx_dir]. destruct Cfg. now repeat split. }
  assert (BM2 : build_and_merge m c2 d4 = (st, Ok tt)) by (now apply (bam_ok m c c2 d d4)).
  assert (LP : exists l, lookup (output_dir c) d3 = Some (EDir l) /\ lookup (output_dir c) d4 = Some (EDir l) /\ output_dir c <> []).
  { unfold save in SV. rewrite O in SV. destruct out as [|name ch src]; [discriminate|]. cbn [save_ops] in SV.
    destruct (tame_saves_all (st_config st) ch (fun c m I J => T ch c m eq_refl I J) []) as [l L]. apply saves_ops with (p := output_dir c) in L. rewrite app_nil_r in L. rewrite L in SV.
    destruct (run_ops None _ d) as [d0 ok] eqn:R. destruct ok; [|discriminate]. injection SV as ->. apply run_ops_cons in R. destruct R as (f1 & e1 & R1 & R). apply run_ops_cons in R. destruct R as (f2 & e2 & R2 & R).
    destruct (ops_below (output_dir c) l f2 e2 [] d3 (fresh_dir _ _ _ _ R1 R2) R) as (l1 & _ & Q). exists l1. split; [exact Q|]. split; [rewrite L4 by (now apply apart_sym); exact Q|].
    intros E. rewrite E in A1. apply (proj1 A1). now exists (cx_dir c ++ [lit "content"]). }
  destruct LP as (l & L3 & LD & NE).
  assert (PD : what (parent (output_dir c)) d4 = KDir).
  { destruct (output_dir c) as [|k p _] using rev_ind; [contradiction|]. unfold parent. rewrite removelast_last. rewrite lookup_app in LD. unfold what.
    destruct (lookup p d4) as [[|l0|]|]; try discriminate. reflexivity. }
  destruct (save_again None st (output_dir c) d d3 (output_dir c) d4 out O T SV D4 NE PD) as (d5 & l1 & SV2 & Q1 & Q2); [right; unfold what; now rewrite LD|].
  assert (SO := save_outside None st (output_dir c) d4 out O T). rewrite SV2 in SO. cbn [fst] in SO.
  assert (LT : lookup (cx_dir c ++ [lit "temp"]) d4 = None) by (rewrite LS; [exact NT|right; right; now left]).
  assert (LM : lookup meta d5 = lookup meta d4) by (now apply (save_apart st (output_dir c) d4 d5 out)).
  assert (W5 : forall q, q <> meta -> what q d5 = what q d4).
  { intros q NM. assert (W43 : what q d4 = what q d3) by (destruct MC as [[-> _]|(b & _ & _ & _ & Z)]; [reflexivity|now apply Z]).
    assert (DEC : above (output_dir c) q \/ ~ above (output_dir c) q).
    { clear. generalize (output_dir c) as p. revert q. induction q as [|k q IH]; intros [|c' p]; [left; now exists []|right; intros [r E]; discriminate|left; now exists (k :: q)|].
      destruct (list_eq_dec N.eq_dec c' k) as [->|NE]; [|right; intros H; apply above_cons in H; now destruct H]. destruct (IH p) as [H|H]; [left; now apply above_cons|right; intros X; apply above_cons in X; now destruct X]. }
    destruct DEC as [[r ->]|NA]; [|now apply SO]. rewrite W43. unfold what. now rewrite !lookup_app, Q1, Q2. }
  assert (C2' : cx_pre c2 = cx_pre c /\ cx_post c2 = cx_post c /\ cx_dir c2 = cx_dir c /\ cx_output c2 = cx_output c /\ set_stuart st c2 = set_stuart st c) by (destruct C2 as [-> | ->]; now repeat split).
  destruct C2' as (E1 & E2 & E3 & E4 & E5). unfold cli_build. rewrite E1, (idle_ran m c (cx_pre c) d4 ID) by (intros x X; apply in_app_iff; now left).
  rewrite BM2. cbn [fl_temp fl_save fl_meta no_faults]. rewrite E3, E4, (RT d4 LT). fold (output_dir c). rewrite SV2. fold meta. rewrite E2.
  destruct MC as [[-> CM]|(b & CM & SM & WM & WO)].
  - rewrite CM. rewrite (idle_ran m c (cx_post c) d5 ID) by (intros x X; apply in_app_iff; now right). exists d5. rewrite E5. split; [reflexivity|]. split; [|split; [exact D4|exact LS]].
    intros q. destruct (path_eq q meta) as [->|N]; [unfold what; now rewrite LM|now apply W5].
  - rewrite CM, SM. cbn [run_ops run_op]. unfold write_file. rewrite LM. unfold what in WM. destruct (lookup meta d4) as [[b0|l0|]|] eqn:LM4; try discriminate. cbn [kind_of] in WM. injection WM as ->.
    rewrite (idle_ran m c (cx_post c) _ ID) by (intros x X; apply in_app_iff; now right). eexists. rewrite E5. split; [reflexivity|]. split; [|split; [exact D4|exact LS]].
    intros q. assert (RO : run_op (OWrite meta b) d5 = Some (update meta (Some (EFile b)) d5)) by (cbn [run_op]; unfold write_file; now rewrite LM).
    destruct (write_effect _ _ _ _ RO) as [_ WE]. rewrite WE. destruct (path_eq meta q) as [<-|N]; [unfold what; now rewrite LM4|]. apply W5. congruence.
Qed.

(** ** Failing alike *)
Lemma error_of_build m f c d c' d' e d1 : cli_build m f c d = (c', d', CErr (CE e)) -> e <> E_Fs FE_Write -> ran (m_script m) (cx_pre c) d d1 -> snd (build_and_merge m c d1) = Err e.
Proof.
  intros B NE R. apply run_scripts_ran in R. unfold cli_build in B. rewrite R in B.
  assert (NS : forall l x y z, run_scripts (m_script m) l x = (y, Some z) -> z <> CE e).
  { induction l as [|n l IH]; intros x y z; cbn [run_scripts]; [discriminate|]. destruct (m_script m n x) as [d6 []]; [apply IH| |]; intros E; injection E as _ <-; discriminate. }
  destruct (build_and_merge m c d1) as [st1 r] eqn:BM. destruct r as [u|x|p|]; cbn [of_res] in B; try discriminate; [|cbn [snd]; congruence]. destruct u.
  destruct (merged_output _ _ _ _ BM) as (out & O & D & _). set (d2 := remove_temp _ _ _) in B. clearbody d2. exfalso.
  unfold save in B. rewrite O in B. destruct out as [|name ch src]; [discriminate|]. cbn [save_ops] in B.
  destruct (run_ops _ _ d2) as [d3 ok]. destruct ok; [|injection B as _ _ B; congruence].
  destruct (cf_meta (st_config st1)) eqn:CM.
  - unfold save_metadata in B. destruct (metadata_value st1) as [v|x|p|] eqn:MV; [|now apply (metadata_errors st1 CM) in MV; [|rewrite O]|discriminate|discriminate].
    destruct (run_ops _ _ d3) as [d4 ok]. destruct ok; [|injection B as _ _ B; congruence].
    destruct (run_scripts _ _ d4) as [d5 [z|]] eqn:RS; [|discriminate]. injection B as _ _ B. now apply NS in RS.
  - destruct (run_scripts _ _ d3) as [d5 [z|]] eqn:RS; [|discriminate]. injection B as _ _ B. now apply NS in RS.
Qed.
Lemma same_error m f f' c c' d d' e e' c1 d1 err : same_project c c' -> ran (m_script m) (cx_pre c) d e -> ran (m_script m) (cx_pre c') d' e' ->
  same_sources (cx_dir c) e e' -> cli_build m f c d = (c1, d1, CErr (CE err)) -> err <> E_Fs FE_Write ->
  exists c1', cli_build m f' c' d' = (c1', e', CErr (CE err)).
Proof.
  intros SP R R' SS B NE. pose proof (error_of_build _ _ _ _ _ _ _ _ B NE R) as E. destruct (bam_same m c c' e e' SP SS) as [B1 _]. rewrite E in B1.
  unfold cli_build. apply run_scripts_ran in R'. rewrite R'. destruct (build_and_merge m c' e') as [st r]. cbn [snd] in B1. subst r. eexists. reflexivity.
Qed.

(** ** Benchmarks *)
Lemma builds_first m fs k : forall n c d c1 d1 c2 d2, cli_build m (fs k) c d = (c1, d1, COk) -> builds m (fun i => fs (S k + i)%nat) n c1 d1 c2 d2 -> builds m (fun i => fs (k + i)%nat) (S n) c d c2 d2.
Proof.
  induction n as [|n IH]; intros c d c1 d1 c2 d2 B BS; inversion BS as [|n0 ca da cb db cc dd BS1 BS2]; subst.
  - eapply bu_more; [apply bu_none|]. rewrite Nat.add_0_r. exact B.
  - eapply bu_more; [eapply IH; eassumption|]. replace (k + S n)%nat with (S k + n)%nat by lia. exact BS2.
Qed.
Lemma bench_loop_runs m fs : forall n k c d d' r, bench_loop m fs k n c d = (d', r) ->
  (r = COk /\ exists c', builds m (fun i => fs (k + i)%nat) n c d c' d') \/
  (r <> COk /\ exists i c1 d1 c', (i < n)%nat /\ builds m (fun i => fs (k + i)%nat) i c d c1 d1 /\ cli_build m (fs (k + i)%nat) c1 d1 = (c', d', r)).
Proof.
  induction n as [|n IH]; intros k c d d' r B; cbn [bench_loop] in B.
  - injection B as <- <-. left. split; [reflexivity|]. exists c. constructor.
  - destruct (cli_build m (fs k) c d) as [[c1 d1] r1] eqn:C. assert (X : r1 = COk \/ r1 <> COk) by (destruct r1; [now left|right|right|right]; discriminate). destruct X as [->|NE].
    + apply IH in B. destruct B as [[-> [c' B]]|(N & i & ca & da & c' & L & B1 & B2)].
      * left. split; [reflexivity|]. exists c'. now apply (builds_first m fs k n c d c1 d1).
      * right. split; [exact N|]. exists (S i), ca, da, c'. split; [lia|]. split; [now apply (builds_first m fs k i c d c1 d1)|]. replace (k + S i)%nat with (S k + i)%nat by lia. exact B2.
    + right. assert (E : (d1, r1) = (d', r)) by (destruct r1; [contradiction|exact B|exact B|exact B]). injection E as -> ->. split; [exact NE|]. exists 0%nat, c, d, c1. split; [lia|]. split; [constructor|]. now rewrite Nat.add_0_r.
Qed.
Lemma bench_runs m fs iters r0 ps dir d d' r n : numeral n iters -> fits_usize n -> bench m fs iters r0 ps dir d = (d', r) ->
  let c := init r0 ps dir (lit "dist") (lit "benchmark") d in
  (r = COk /\ exists c', builds m fs (N.to_nat n) c d c' d') \/
  (r <> COk /\ exists i c1 d1 c', (i < N.to_nat n)%nat /\ builds m fs i c d c1 d1 /\ cli_build m (fs i) c1 d1 = (c', d', r)).
Proof.
  intros NU FU B c. unfold bench in B. replace (parse_usize iters) with (Some n) in B by (symmetry; now apply parse_usize_iff). exact (bench_loop_runs m fs (N.to_nat n) 0 c d d' r B).
Qed.
Lemma bench_bad m fs iters r0 ps dir d : (forall n, numeral n iters -> ~ fits_usize n) -> bench m fs iters r0 ps dir d = (d, CErr CE_Msg).
Proof.
  intros H. unfold bench. destruct (parse_usize iters) as [n|] eqn:E; [|reflexivity]. apply parse_usize_iff in E. destruct E as [E1 E2]. now apply H in E1.
Qed.
Lemma dist_apart dir n : ~ (In n [lit "dist"]) -> apart (join_path dir (lit "dist")) (dir ++ [n]).
Proof. intros N. change (join_path dir (lit "dist")) with (dir ++ [lit "dist"]). apply siblings_apart. intros E. apply N. now left. Qed.
Lemma again_loop m : forall n k c d c1 d1, cli_build m no_faults c d = (c1, d1, COk) -> idle_scripts m c -> ent_distinct d -> inward_project c d -> lookup (cx_dir c ++ [lit "temp"]) d = None ->
  cx_output c = lit "dist" -> exists d', bench_loop m (fun _ => no_faults) k (S n) c d = (d', COk) /\ forall q, what q d' = what q d1.
Proof.
  induction n as [|n IH]; intros k c d c1 d1 B ID D IP NT OUT; cbn [bench_loop]; rewrite B.
  - exists d1. now split.
  - assert (AP : Forall (fun n => apart (output_dir c) (cx_dir c ++ [n])) [lit "content"; lit "static"; lit "temp"; lit "metadata.json"]).
    { unfold output_dir. rewrite OUT. repeat (apply Forall_cons; [apply dist_apart; intros [X|[]]; discriminate X|]). constructor. }
    destruct (build_again m c d c1 d1 c1 B (or_intror eq_refl) ID D IP NT AP) as (d2 & B2 & W & D1 & SS).
    assert (CC : cx_pre c1 = cx_pre c /\ cx_post c1 = cx_post c /\ cx_dir c1 = cx_dir c /\ cx_output c1 = cx_output c /\ st_plugins (cx_stuart c1) = st_plugins (cx_stuart c)).
    { destruct (build_saved _ _ _ _ _ _ B) as (e0 & st & d3 & d4 & out & R0 & BM & E1 & _). rewrite E1. destruct (merged_output _ _ _ _ BM) as (? & _ & _ & _ & Q2 & _). now repeat split. }
    destruct CC as (E1 & E2 & E3 & E4 & E5).
    destruct (IH (S k) c1 d1 c1 d2 B2) as (d' & L & W').
    + intros x y I. apply ID. now rewrite E1, E2 in I.
    + exact D1.
    + destruct IP as (I1 & I2 & I3 & I4). unfold inward_project. rewrite E3, E5. split; [|split; [|split; [|exact I4]]]; intros e L; [rewrite (SS (lit "content")) in L by (now left)|rewrite (SS (lit "static")) in L by (right; now left)|rewrite (SS (lit "temp")) in L by (right; right; now left)]; auto.
    + rewrite E3. rewrite (SS (lit "temp")) by (right; right; now left). exact NT.
    + now rewrite E4.
    + exists d'. split; [exact L|]. intros q. now rewrite W'.
Qed.
Lemma bench_same m iters r0 ps dir d n c1 d1 : let c := init r0 ps dir (lit "dist") (lit "benchmark") d in
  numeral n iters -> fits_usize n -> (0 < n)%N -> cli_build m no_faults c d = (c1, d1, COk) ->
  idle_scripts m c -> ent_distinct d -> inward_project c d -> lookup (dir ++ [lit "temp"]) d = None ->
  exists d', bench m (fun _ => no_faults) iters r0 ps dir d = (d', COk) /\ forall q, what q d' = what q d1.
Proof.
  intros c NU FU P B ID D IP NT. unfold bench. replace (parse_usize iters) with (Some n) by (symmetry; now apply parse_usize_iff). fold c.
  destruct (N.to_nat n) as [|k] eqn:K; [lia|]. now apply (again_loop m k 0 c d c1 d1).
Qed.
