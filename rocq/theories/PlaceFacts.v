(** PlaceFacts.v -- building a project and a copy of it (C85). *)

From Coq Require Import String List NArith ZArith Bool Lia.
From Verif Require Import Text Utf8 Json Base Syntax Parse Tree Interp Build Disk Cli Load New Report Main.
From Verif Require Import SpecScope SpecTree SpecDisk SpecProject SpecChars SpecMain SpecAlike SpecPlace.
From Verif Require Import TextFacts Utf8Facts TreeFacts PathFacts DiskFacts SaveFacts ProjectFacts CliFacts AgainFacts AlikeFacts MoveFacts MainFacts ServerFacts ModeFacts SpecMode.
Import ListNotations.

(** ** Calls in a directory *)
Definition at_op (p : path) (o : op) : op :=
  match o with ORmTreeIfDir q => ORmTreeIfDir (p ++ q) | OMkDir q => OMkDir (p ++ q) | OMkDirTolerant q => OMkDirTolerant (p ++ q) | OWrite q b => OWrite (p ++ q) b end.
Lemma at_path p o : op_path (at_op p o) = p ++ op_path o.
Proof. now destruct o. Qed.
Lemma rmtree_in q d : q <> [] -> rmtree q d = match lookup q d with Some (EDir _) => IoOk (update q None d) | _ => IoErr end.
Proof. unfold rmtree. now destruct q. Qed.
Lemma op_in p o d l : op_path o <> [] -> lookup p d = Some (EDir l) ->
  match run_op o (EDir l) with
  | Some e => exists d' l', e = EDir l' /\ run_op (at_op p o) d = Some d' /\ lookup p d' = Some (EDir l')
  | None => run_op (at_op p o) d = None
  end.
Proof.
  intros NE L. assert (LQ : lookup (p ++ op_path o) d = lookup (op_path o) (EDir l)) by (rewrite DiskFacts.lookup_app; now rewrite L).
  assert (PQ : lookup (parent (p ++ op_path o)) d = lookup (parent (op_path o)) (EDir l)) by (rewrite (parent_below p _ NE), DiskFacts.lookup_app; now rewrite L).
  assert (UP : forall z, exists d' l', update (op_path o) z (EDir l) = EDir l' /\ update (p ++ op_path o) z d = d' /\ lookup p d' = Some (EDir l')).
  { intros z. destruct (is_dir_update (op_path o) z l NE) as [l' U]. exists (update (p ++ op_path o) z d), l'. split; [exact U|]. split; [reflexivity|]. rewrite (update_sub p _ z d _ NE L). now rewrite U. }
  assert (NP : p ++ op_path o <> []) by (intros X; apply app_eq_nil in X; now destruct X).
  destruct o as [q|q|q|q b]; cbn [op_path at_op run_op] in *.
  - rewrite LQ. destruct (lookup q (EDir l)) as [[|l0|]|] eqn:Q; cbn [is_edir]; try (exists d, l; now repeat split).
    rewrite (rmtree_in q _ NE), (rmtree_in (p ++ q) _ NP), LQ, Q. destruct (UP None) as (d' & l' & U1 & U2 & U3).
    exists d', l'. rewrite U1, U2. now repeat split.
  - unfold mkdir. rewrite LQ, PQ. destruct (UP (Some (EDir []))) as (d' & l' & U1 & U2 & U3). destruct (lookup q (EDir l)); [reflexivity|].
    destruct (is_edir _); [|reflexivity]. exists d', l'. rewrite U1, U2. now repeat split.
  - unfold mkdir. rewrite LQ, PQ. destruct (UP (Some (EDir []))) as (d' & l' & U1 & U2 & U3). destruct (lookup q (EDir l)); [exists d, l; now repeat split|].
    destruct (is_edir _); [|reflexivity]. exists d', l'. rewrite U1, U2. now repeat split.
  - unfold write_file. rewrite LQ, PQ. destruct (UP (Some (EFile b))) as (d' & l' & U1 & U2 & U3). destruct (lookup q (EDir l)) as [[|l0|]|]; try reflexivity.
    + exists d', l'. rewrite U1, U2. now repeat split.
    + destruct (is_edir _); [|reflexivity]. exists d', l'. rewrite U1, U2. now repeat split.
Qed.
Lemma ops_in p ops : Forall (fun o => op_path o <> []) ops -> forall f d l, lookup p d = Some (EDir l) ->
  exists l', lookup p (fst (run_ops f (map (at_op p) ops) d)) = Some (EDir l') /\ run_ops f ops (EDir l) = (EDir l', snd (run_ops f (map (at_op p) ops) d)).
Proof.
  induction 1 as [|o ops NE _ IH]; intros f d l L; [cbn; now exists l|]. cbn [map run_ops]. rewrite at_path. pose proof (op_in p o d l NE L) as B.
  assert (G : forall f', exists l', lookup p (fst (match run_op (at_op p o) d with Some d' => run_ops f' (map (at_op p) ops) d' | None => (d, false) end)) = Some (EDir l') /\
    match run_op o (EDir l) with Some d' => run_ops f' ops d' | None => (EDir l, false) end = (EDir l', snd (match run_op (at_op p o) d with Some d' => run_ops f' (map (at_op p) ops) d' | None => (d, false) end))).
  { intros f'. destruct (run_op o (EDir l)) as [e|]; [destruct B as (d' & l' & -> & -> & B2); now apply IH|]. rewrite B. now exists l. }
  destruct f as [[[|k] junk]|].
  - destruct (is_dir_update (op_path o) junk l NE) as [l' U]. exists l'. cbn [fst snd]. rewrite (update_sub p _ junk d _ NE L), U. now split.
  - destruct (G (Some (Fault k junk))) as (l' & G1 & G2). exists l'. destruct (run_op (at_op p o) d), (run_op o (EDir l)); now split.
  - destruct (G None) as (l' & G1 & G2). exists l'. destruct (run_op (at_op p o) d), (run_op o (EDir l)); now split.
Qed.
Lemma ops_both p p' ops f d d' l : Forall (fun o => op_path o <> []) ops -> lookup p d = Some (EDir l) -> lookup p' d' = Some (EDir l) ->
  snd (run_ops f (map (at_op p') ops) d') = snd (run_ops f (map (at_op p) ops) d) /\
  exists l', lookup p (fst (run_ops f (map (at_op p) ops) d)) = Some (EDir l') /\ lookup p' (fst (run_ops f (map (at_op p') ops) d')) = Some (EDir l').
Proof.
  intros F L L'. destruct (ops_in p ops F f d l L) as (a & A1 & A2), (ops_in p' ops F f d' l L') as (b & B1 & B2). rewrite A2 in B2. injection B2 as <- E. split; [now symmetry|]. now exists a.
Qed.

(** ** Trees *)
Section Trees.
  Variable R : path -> path -> Prop.
  Inductive like_tree : node -> node -> Prop :=
  | lt_file name b pc meta src src' : R src src' -> like_tree (NFile name b pc meta src) (NFile name b pc meta src')
  | lt_dir name ch ch' src src' : R src src' -> Forall2 like_tree ch ch' -> like_tree (NDir name ch src) (NDir name ch' src').
  Lemma output_tree n : forall n', like_output R n n' -> like_tree n n'.
  Proof.
    induction n as [name b pc meta src|name ch src IH] using node_ind2; intros n' L; inversion L as [|? ? ch' ? src' S H]; subst; constructor; auto.
    clear L. revert IH. induction H as [|x x' ch ch' X H IHl]; intros IH; constructor; inversion IH; subst; auto.
  Qed.
  Lemma tree_ops n : forall n', like_tree n n' -> forall cf p, save_recur cf p n' = save_recur cf p n.
  Proof.
    induction n as [name b pc meta src|name ch src IH] using node_ind2; intros n' L cf p; inversion L as [|? ? ch' ? src' S H]; subst; cbn [save_recur]; auto.
    f_equal. clear L. induction H as [|x x' ch ch' X H IHl]; cbn [flat_map]; auto. inversion IH; subst. f_equal; auto.
  Qed.
  Lemma tree_save o o' : like_tree o o' -> forall cf p, save_ops cf p o' = save_ops cf p o.
  Proof.
    intros L cf p. destruct L as [|name ch ch' src src' S H]; auto. cbn [save_ops]. do 3 f_equal. induction H as [|x x' ch ch' X H IH]; cbn [flat_map]; auto. rewrite IH. f_equal. now apply tree_ops.
  Qed.
  Lemma tree_meta n : forall n' first, like_tree n n' -> metadata_recur first n' = metadata_recur first n.
  Proof.
    induction n as [name b pc meta src|name ch src IH] using node_ind2; intros n' first L; inversion L as [|? ? ch' ? src' S H]; subst; cbn [metadata_recur]; auto.
    replace (map_res (metadata_recur false) ch') with (map_res (metadata_recur false) ch); auto. clear L. induction H as [|x x' ch ch' X H IHl]; auto. inversion IH; subst. cbn [map_res]. rewrite (H2 _ false X).
    fold (map_res (metadata_recur false)). now rewrite (IHl H3).
  Qed.
  Lemma tree_name n n' : like_tree n n' -> n_name n' = n_name n /\ is_dir n' = is_dir n /\ R (n_source n) (n_source n').
  Proof. now intros []. Qed.
  Definition like_done (o o' : Tree.outcome) : Prop :=
    match o, o' with
    | Tree.Done, Tree.Done => True
    | Tree.Failed e, Tree.Failed e' => exists a a' b b', e = E_Fs (FE_Conflict a b) /\ e' = E_Fs (FE_Conflict a' b') /\ R a a' /\ R b b'
    | Panicked p, Panicked p' => p' = p
    | _, _ => False
    end.
  Definition merges_like (b : node) : Prop := forall b' a a', like_tree b b' -> like_tree a a' ->
    like_tree (fst (merge a b)) (fst (merge a' b')) /\ like_done (snd (merge a b)) (snd (merge a' b')).
  Lemma step_like oc oc' c c' : merges_like oc -> like_tree oc oc' -> like_tree c c' ->
    like_tree (fst (child_step oc c)) (fst (child_step oc' c')) /\ like_done (snd (child_step oc c)) (snd (child_step oc' c')).
  Proof.
    intros G O C. unfold child_step. destruct (tree_name _ _ O) as (_ & O1 & O2), (tree_name _ _ C) as (_ & C1 & C2). rewrite O1, C1.
    destruct (is_dir c && is_dir oc); [now apply G|]. cbn. split; [exact C|]. do 4 eexists. repeat split; assumption.
  Qed.
  Lemma first_like oc oc' ch ch' : merges_like oc -> like_tree oc oc' -> Forall2 like_tree ch ch' ->
    Forall2 like_tree (fst (update_first oc (child_step oc) ch)) (fst (update_first oc' (child_step oc') ch')) /\
    like_done (snd (update_first oc (child_step oc) ch)) (snd (update_first oc' (child_step oc') ch')).
  Proof.
    intros G O. induction 1 as [|c c' ch ch' C H IH]; cbn [update_first]; [split; [now constructor|exact I]|].
    rewrite (proj1 (tree_name _ _ O)), (proj1 (tree_name _ _ C)). destruct (text_eqb _ _).
    - destruct (step_like oc oc' c c' G O C) as [S1 S2]. destruct (child_step oc c), (child_step oc' c'). cbn [fst snd] in *. split; [now constructor|exact S2].
    - destruct IH as [I1 I2]. fold (update_first oc (child_step oc)) (update_first oc' (child_step oc')).
      destruct (update_first oc (child_step oc) ch), (update_first oc' (child_step oc') ch'). cbn [fst snd] in *. split; [now constructor|exact I2].
  Qed.
  Lemma list_like och : Forall merges_like och -> forall och' ch ch', Forall2 like_tree och och' -> Forall2 like_tree ch ch' ->
    Forall2 like_tree (fst (merge_list ch och)) (fst (merge_list ch' och')) /\ like_done (snd (merge_list ch och)) (snd (merge_list ch' och')).
  Proof.
    induction 1 as [|oc och G GO IH]; intros och' ch ch' O C; inversion O as [|? oc' ? och2 O1 O2]; subst; cbn [merge_list]; [split; [exact C|exact I]|].
    destruct (first_like oc oc' ch ch' G O1 C) as [F1 F2]. destruct (update_first oc (child_step oc) ch) as [r []], (update_first oc' (child_step oc') ch') as [r' []]; cbn [fst snd] in *; try contradiction; try now split.
    now apply IH.
  Qed.
  Lemma merge_likes b : merges_like b.
  Proof.
    induction b as [name b pc meta src|name och src IH] using node_ind2; intros b' a a' B A.
    - inversion B; subst. destruct A; cbn; (split; [constructor; assumption|reflexivity]).
    - inversion B as [|? ? och' ? src' S O]; subst. destruct A as [|n ch ch' s s' Sa C]; [cbn; split; [now constructor|reflexivity]|].
      rewrite !merge_dirs_eq. destruct (list_like och IH och' ch ch' O C) as [L1 L2]. destruct (merge_list ch och), (merge_list ch' och'). cbn [fst snd] in *. split; [now constructor|exact L2].
  Qed.
End Trees.

(** ** Building and merging *)
Section Move.
  Variables p p' : path.
  Let R := moved p p'.
  Lemma moved_more q q' k : R q q' -> R (q ++ k) (q' ++ k).
  Proof. intros (ks & -> & ->). exists (ks ++ k). now rewrite !app_assoc. Qed.
  Lemma moved_here k : R (p ++ k) (p' ++ k).
  Proof. now exists k. Qed.
  Lemma static_like h e : forall q q' name, R q q' -> both (like_error R) (like_tree R) (create_from h [] false q name e) (create_from h [] false q' name e).
  Proof.
    induction e as [b| |l IH] using ent_ind2; intros q q' name Q; cbn [create_from].
    - cbn. now constructor.
    - constructor.
    - apply (both_bind _ (Forall2 (like_tree R))); [|intros; cbn; now constructor]. apply (both_list _ eq).
      + clear. induction l; constructor; auto.
      + intros x x' I <-. rewrite Forall_forall in IH. apply IH; auto. now apply moved_more.
  Qed.
  Definition like_stuart (st st' : stuart) : Prop := like_opt (like_tree R) (st_output st) (st_output st') /\ st_config st' = st_config st.
  Definition like_res (r r' : res error unit) : Prop := like_result R (of_res r) (of_res r').
  Lemma dirs_like h d d' names : (forall n, In n names -> lookup (p' ++ [n]) d' = lookup (p ++ [n]) d) -> forall st st', like_stuart st st' ->
    like_res (snd (merge_dirs h p names d st)) (snd (merge_dirs h p' names d' st')) /\
    (snd (merge_dirs h p names d st) = Ok tt -> like_stuart (fst (merge_dirs h p names d st)) (fst (merge_dirs h p' names d' st'))).
  Proof.
    induction names as [|n names IH]; intros L st st' S; cbn [merge_dirs]; [split; [constructor|intros _; exact S]|]. rewrite (L n (or_introl eq_refl)).
    assert (IH' := fun st st' => IH (fun m I => L m (or_intror I)) st st'). destruct (lookup (p ++ [n]) d) as [e|]; [|now apply IH'].
    assert (N : both (like_error R) (like_tree R) (node_new h [] false (p ++ [n]) n (Some e)) (node_new h [] false (p' ++ [n]) n (Some e))).
    { unfold node_new. destruct e as [|l|]; try (cbn; constructor; apply moved_here). apply static_like. apply moved_here. }
    destruct (node_new h [] false (p ++ [n]) n (Some e)) as [t|x|x|], (node_new h [] false (p' ++ [n]) n (Some e)) as [t'|x'|x'|]; cbn in N; try contradiction; cbn [fst snd];
      try (split; [|discriminate]); [|now apply lr_error|cbn; subst; constructor|constructor].
    unfold merge_output. destruct S as [O C]. destruct (st_output st) as [o|], (st_output st') as [o'|]; cbn in O; try contradiction; [|split; [constructor|discriminate]].
    destruct (merge_likes R t t' o o' N O) as [M1 M2]. destruct (merge o t) as [o1 x], (merge o' t') as [o1' x']. cbn [fst snd] in *.
    destruct x as [|x|x], x' as [|x'|x']; cbn in M2; try contradiction; cbn [fst snd]; try (split; [|discriminate]).
    - apply IH'. split; [exact M1|exact C].
    - destruct M2 as (a & a' & b & b' & -> & -> & A & B). cbn. now constructor.
    - subst. constructor.
  Qed.
  Lemma bam_place m m' c c' d d' : m_host m' = m_host m -> m_osenv m' = m_osenv m -> cx_mode c' = cx_mode c -> cx_dir c = p -> cx_dir c' = p' ->
    st_config (cx_stuart c') = st_config (cx_stuart c) -> st_plugins (cx_stuart c') = st_plugins (cx_stuart c) ->
    steady R None (st_plugins (cx_stuart c)) -> lookup p' d' = lookup p d ->
    like_res (snd (build_and_merge m c d)) (snd (build_and_merge m' c' d')) /\
    (snd (build_and_merge m c d) = Ok tt -> like_stuart (fst (build_and_merge m c d)) (fst (build_and_merge m' c' d'))).
  Proof.
    intros H OE MO D D' C P St L. unfold build_and_merge. rewrite H, OE, MO, D, D'.
    assert (LK : forall n, lookup (p' ++ [n]) d' = lookup (p ++ [n]) d) by (intros n; rewrite !DiskFacts.lookup_app; now rewrite L).
    pose proof (build_like R None (m_host m) (m_osenv m) (m_osenv m) (cx_mode c) (cx_mode c) (source_at (p ++ [lit "content"]) d) (source_at (p' ++ [lit "content"]) d') (cx_stuart c) (cx_stuart c')
      (f_equal cf_meta C) eq_refl) as B.
    pose proof (build_keeps (m_host m) (m_osenv m) (cx_mode c) (source_at (p ++ [lit "content"]) d) (cx_stuart c)) as [K1 _].
    pose proof (build_keeps (m_host m) (m_osenv m) (cx_mode c) (source_at (p' ++ [lit "content"]) d') (cx_stuart c')) as [K1' _].
    destruct B as [B1 B2].
    { unfold source_at. cbn [sd_path sd_name sd_ent]. rewrite !last_last, P, LK. unfold node_new. destruct (lookup (p ++ [lit "content"]) d) as [[|l|]|]; try (cbn; constructor; apply moved_here).
      apply create_like; auto; [|apply moved_here]. intros q q' k Q. now apply moved_more. }
    destruct (build (m_host m) _ _ (source_at (p ++ _) d) _) as [st r], (build (m_host m) _ _ (source_at (p' ++ _) d') _) as [st' r']. cbn [fst snd] in *.
    destruct r as [[]|x|x|], r' as [[]|x'|x'|]; cbn in B1; try contradiction; cbn [fst snd]; try (split; [|discriminate]).
    - apply dirs_like; [intros n _; apply LK|]. split; [|congruence]. specialize (B2 eq_refl). destruct (st_output st), (st_output st'); cbn in B2 |- *; try contradiction; auto. now apply output_tree.
    - now apply lr_error.
    - subst. constructor.
    - constructor.
  Qed.
  Lemma scripts_place sc sc' l : portable p p' sc sc' -> forall d d', lookup p' d' = lookup p d ->
    snd (run_scripts sc' l d') = snd (run_scripts sc l d) /\ lookup p' (fst (run_scripts sc' l d')) = lookup p (fst (run_scripts sc l d)).
  Proof.
    intros P. induction l as [|n l IH]; intros d d' L; [now split|]. cbn [run_scripts]. destruct (P n d d' L) as [P1 P2].
    destruct (sc n d) as [x r], (sc' n d') as [x' r']. cbn [fst snd] in *. subst r'. destruct r; try now split. now apply IH.
  Qed.
  Lemma says_place sc sc' l : portable p p' sc sc' -> forall d d', lookup p' d' = lookup p d -> scripts_say sc' l d' = scripts_say sc l d.
  Proof.
    intros P. induction l as [|n l IH]; intros d d' L; [reflexivity|]. cbn [scripts_say]. destruct (P n d d' L) as [P1 P2].
    destruct (sc n d) as [x r], (sc' n d') as [x' r']. cbn [fst snd] in *. subst r'. destruct r; f_equal. now apply IH.
  Qed.
  Lemma sub_update q x d d' l : q <> [] -> lookup p d = Some (EDir l) -> lookup p' d' = Some (EDir l) ->
    exists l', lookup p (update (p ++ q) x d) = Some (EDir l') /\ lookup p' (update (p' ++ q) x d') = Some (EDir l').
  Proof. intros NE L L'. destruct (is_dir_update q x l NE) as [l' U]. exists l'. rewrite (update_sub p q x d _ NE L), (update_sub p' q x d' _ NE L'), U. now split. Qed.
  Lemma project_place m m' f c c' d d' o : m_host m' = m_host m -> m_ser m' = m_ser m -> m_osenv m' = m_osenv m -> portable p p' (m_script m) (m_script m') ->
    cx_mode c' = cx_mode c -> cx_pre c' = cx_pre c -> cx_post c' = cx_post c -> cx_dir c = p -> cx_dir c' = p' ->
    st_config (cx_stuart c') = st_config (cx_stuart c) -> st_plugins (cx_stuart c') = st_plugins (cx_stuart c) ->
    steady R None (st_plugins (cx_stuart c)) -> lookup p' d' = lookup p d ->
    meant p (cx_output c) (p ++ o) -> meant p' (cx_output c') (p' ++ o) -> o <> [] ->
    (forall d1, ran (m_script m) (cx_pre c) d d1 -> inward_project c d1) ->
    lookup p' (snd (fst (cli_build m' f c' d'))) = lookup p (snd (fst (cli_build m f c d))) /\
    like_result R (snd (cli_build m f c d)) (snd (cli_build m' f c' d')) /\
    build_says m' f c' d' = build_says m f c d.
  Proof.
    intros H SE OE PS MO PR PO D D' C P St L OU OU' NO IN. apply join_meant in OU, OU'. unfold cli_build, build_says. rewrite D, D', PR, PO, SE, OU, OU', (says_place _ _ (cx_pre c) PS d d' L).
    destruct (scripts_place _ _ (cx_pre c) PS d d' L) as [R1 R2]. destruct (run_scripts (m_script m) (cx_pre c) d) as [d1 e] eqn:RS, (run_scripts (m_script m') (cx_pre c) d') as [d1' e'].
    cbn [fst snd] in R1, R2. subst e'. destruct e as [e|]; [split; [exact R2|split; [constructor|reflexivity]]|].
    specialize (IN d1 (proj1 (run_scripts_ran _ _ _ _) RS)).
    destruct (bam_place m m' c c' d1 d1' H OE MO D D' C P St R2) as [B1 B2]. pose proof (bam_keeps m c d1) as [K _].
    assert (X : snd (build_and_merge m c d1) = Ok tt -> exists l, lookup p d1 = Some (EDir l)).
    { intros E. unfold build_and_merge in E. rewrite D in E. unfold build, source_at in E. cbn [sd_path sd_name sd_ent] in E. rewrite DiskFacts.lookup_app in E.
      destruct (lookup p d1) as [[b|l|]|]; [discriminate E|now exists l|discriminate E|discriminate E]. }
    pose proof (fun st => merged_tame m c d1 st) as T.
    destruct (build_and_merge m c d1) as [st r], (build_and_merge m' c' d1') as [st' r']. cbn [fst snd] in *.
    assert (Z : (r = Ok tt /\ r' = Ok tt) \/ (of_res r <> COk /\ of_res r' <> COk)).
    { unfold like_res in B1. destruct r as [[]| | |], r' as [[]| | |]; inversion B1; auto; right; split; discriminate. }
    destruct Z as [[-> ->]|[Z1 Z2]].
    2:{ destruct r as [u| | |]; [now destruct Z1|..]; (destruct r' as [u'| | |]; [now destruct Z2|..]); split; try exact R2; (split; [exact B1|reflexivity]). }
    destruct (X eq_refl) as [l L1]. clear X. assert (L1' : lookup p' d1' = Some (EDir l)) by congruence. destruct (B2 eq_refl) as [O CF]. clear B1 B2.
    destruct (T st eq_refl IN) as (out & EO & TA). clear T. rewrite EO in O. destruct (st_output st') as [out'|] eqn:EO'; cbn in O; [|contradiction].
    assert (RT : exists l2, lookup p (remove_temp (fl_temp f) (p ++ [lit "temp"]) d1) = Some (EDir l2) /\ lookup p' (remove_temp (fl_temp f) (p' ++ [lit "temp"]) d1') = Some (EDir l2)).
    { unfold remove_temp. destruct (fl_temp f) as [junk|]; [now apply (sub_update _ _ _ _ l)|].
      assert (U := sub_update [lit "temp"] None d1 d1' l ltac:(discriminate) L1 L1'). rewrite !rmtree_in by (intros Q; apply app_eq_nil in Q; destruct Q; discriminate). rewrite !DiskFacts.lookup_app, L1, L1'.
      destruct (lookup [lit "temp"] (EDir l)) as [[|l0|]|]; try exact U; now exists l. }
    destruct RT as (l2 & L2 & L2'). set (d2 := remove_temp _ _ d1) in *. set (d2' := remove_temp _ _ d1') in *. clearbody d2 d2'. clear L1 L1' l.
    unfold save. rewrite EO, EO', CF, (tree_save R _ _ O).
    assert (SV : forall p0, save_ops (st_config st) (p0 ++ o) out = None \/ exists ch es, out = NDir (n_name out) ch (n_source out) /\ saves_all (st_config st) [] ch es /\
      save_ops (st_config st) (p0 ++ o) out = Some (map (at_op p0) (ORmTreeIfDir o :: OMkDir o :: map (op_of o) es))).
    { intros p0. destruct out as [|name ch src]; [now left|]. right. destruct (tame_saves_all (st_config st) ch (fun c0 m0 I J => TA ch c0 m0 eq_refl I J) []) as [es ES]. exists ch, es.
      split; [reflexivity|]. split; [exact ES|]. cbn [save_ops map at_op]. do 3 f_equal. pose proof (proj2 (saves_ops (st_config st) (p0 ++ o)) [] ch es ES) as E. rewrite app_nil_r in E. rewrite E, map_map.
      apply map_ext. intros [q [b|]]; unfold op_of; cbn [fst snd at_op]; now rewrite app_assoc. }
    destruct (SV p) as [N|(ch & es & E1 & ES & S1)].
    { destruct out; [|discriminate N]. cbn [save_ops]. split; [cbn [fst snd]; congruence|split; [constructor|reflexivity]]. }
    destruct (SV p') as [N|(ch' & es' & E1' & ES' & S1')]; [rewrite E1 in N; discriminate N|]. assert (ch' = ch) by congruence. subst ch'.
    assert (es' = es). { apply (saves_all_is _ _ _ _ ES'). exact (proj2 (saves_ops (st_config st) []) [] ch es ES). } subst es'. rewrite S1, S1'.
    set (ops := ORmTreeIfDir o :: OMkDir o :: map (op_of o) es).
    assert (F : Forall (fun x => op_path x <> []) ops).
    { unfold ops. constructor; [exact NO|]. constructor; [exact NO|]. apply Forall_forall. intros x J. apply in_map_iff in J. destruct J as ([q [b|]] & <- & _); cbn; intros Q; apply app_eq_nil in Q; now destruct Q. }
    destruct (ops_both p p' ops (fl_save f) d2 d2' l2 F L2 L2') as [Q1 (l3 & Q2 & Q3)]. destruct (run_ops (fl_save f) (map (at_op p) ops) d2) as [d3 ok], (run_ops (fl_save f) (map (at_op p') ops) d2') as [d3' ok'].
    cbn [fst snd] in Q1, Q2, Q3. subst ok'. destruct ok; [|split; [cbn [fst snd]; congruence|split; [constructor|reflexivity]]].
    assert (MT : exists d4 d4' r, (if cf_meta (st_config st) then save_metadata (m_ser m) (fl_meta f) st (p ++ [lit "metadata.json"]) d3 else (d3, Ok tt)) = (d4, r) /\
      (if cf_meta (st_config st) then save_metadata (m_ser m) (fl_meta f) st' (p' ++ [lit "metadata.json"]) d3' else (d3', Ok tt)) = (d4', r) /\ lookup p' d4' = lookup p d4).
    { destruct (cf_meta (st_config st)); [|exists d3, d3', (Ok tt); repeat split; congruence]. unfold save_metadata, metadata_value. rewrite CF, EO, EO', (tree_meta R _ _ true O).
      destruct (if negb _ then _ else _) as [v|x|x|]; try (do 3 eexists; split; [reflexivity|split; [reflexivity|congruence]]).
      destruct (ops_both p p' [OWrite [lit "metadata.json"] (m_ser m v)] (fl_meta f) d3 d3' l3 ltac:(constructor; [discriminate|constructor]) Q2 Q3) as [W1 (l4 & W2 & W3)]. cbn [map at_op] in *.
      destruct (run_ops (fl_meta f) [OWrite (p ++ _) _] d3) as [d4 ok], (run_ops (fl_meta f) [OWrite (p' ++ _) _] d3') as [d4' ok']. cbn [fst snd] in *. subst ok'.
      do 3 eexists. split; [reflexivity|]. split; [reflexivity|congruence]. }
    destruct MT as (d4 & d4' & r & -> & -> & L4). destruct r as [u|x|x|]; try (split; [exact L4|split; [constructor|reflexivity]]).
    rewrite (says_place _ _ (cx_post c) PS d4 d4' L4).
    destruct (scripts_place _ _ (cx_post c) PS d4 d4' L4) as [Y1 Y2]. destruct (run_scripts (m_script m) (cx_post c) d4) as [d5 e], (run_scripts (m_script m') (cx_post c) d4') as [d5' e'].
    cbn [fst snd] in Y1, Y2. subst e'. destruct e; (split; [exact Y2|split; [constructor|reflexivity]]).
  Qed.
End Move.

(** ** The command *)
Lemma place w lv manifest output q q' p p' name r deps ps d d' d0 d0' o :
  meant q manifest (p ++ [name]) -> meant q' manifest (p' ++ [name]) ->
  manifest_says w (p ++ [name]) d r deps -> manifest_says w (p' ++ [name]) d' r deps ->
  loads_all (lo_js (w_loader w)) (load_from_source (w_loader w) (w_load_faults w) p) deps d d0 ps ->
  loads_all (lo_js (w_loader w)) (load_from_source (w_loader w) (w_load_faults w) p') deps d' d0' ps ->
  lookup p' d0' = lookup p d0 -> steady (moved p p') None ps ->
  portable p p' (w_scripts w (script_env (p ++ [name]) output (lit "production"))) (w_scripts w (script_env (p' ++ [name]) output (lit "production"))) ->
  meant p output (p ++ o) -> meant p' output (p' ++ o) -> o <> [] ->
  (forall d1, ran (w_scripts w (script_env (p ++ [name]) output (lit "production"))) (pre_scripts (lookup (p ++ [lit "scripts"]) d0)) d0 d1 ->
     inward_project (init r ps p output (lit "production") d0) d1) ->
  exists d1 d1' e loading loading' l l',
    main (cd q w) lv (CmdBuild manifest output) d = (d1, e, loading ++ l) /\ main (cd q' w) lv (CmdBuild manifest output) d' = (d1', e, loading' ++ l') /\
    lookup p' d1' = lookup p d1 /\ (deps = [] -> loading = [] /\ loading' = []) /\ Forall2 (like_note (moved p p')) l l'.
Proof.
  intros M M' S S' L L' Q St PT OU OU' NO IN.
  destruct (start_ok (cd q w) manifest output (lit "production") d p name r deps d0 ps M S L) as [said E].
  destruct (start_ok (cd q' w) manifest output (lit "production") d' p' name r deps d0' ps M' S' L') as [said' E'].
  assert (SD := said_first (cd q w) lv manifest output (lit "production") d p name r deps d0 ps _ said M S L E).
  assert (SD' := said_first (cd q' w) lv manifest output (lit "production") d' p' name r deps d0' ps _ said' M' S' L' E').
  unfold main, perform, build_command. rewrite E, E'. apply join_meant in M, M'. cbn [cd w_cwd w_build_faults]. rewrite M, M'. clear M M' E E'.
  destruct (project_place p p' (machine_of (cd q w) (p ++ [name]) output (lit "production")) (machine_of (cd q' w) (p' ++ [name]) output (lit "production")) (w_build_faults w 0)
    (init r ps p output (lit "production") d0) (init r ps p' output (lit "production") d0') d0 d0' o) as (A & B & C); auto;
    try (cbn [init cx_pre cx_post]; rewrite !DiskFacts.lookup_app; now rewrite Q).
  rewrite C. clear C. destruct (cli_build _ _ (init r ps p output _ d0) d0) as [[c1 d1] x], (cli_build _ _ (init r ps p' output _ d0') d0') as [[c1' d1'] x']. cbn [fst snd] in A, B.
  assert (LG : build_says (machine_of (cd q w) (p ++ [name]) output (lit "production")) (w_build_faults w 0) (init r ps p output (lit "production") d0) d0 <> [] /\
    forall i, In i (build_says (machine_of (cd q w) (p ++ [name]) output (lit "production")) (w_build_faults w 0) (init r ps p output (lit "production") d0) d0) -> is_log i = true).
  { split; [|apply build_says_log]. unfold build_says. destruct (cx_pre (init r ps p output (lit "production") d0)); [cbn [run_scripts scripts_say app]|cbn [scripts_say app]]; discriminate. }
  set (bs := build_says _ _ _ _) in *. clearbody bs. destruct LG as [NE LG]. rewrite !filter_app.
  assert (X : forall sd, existsb is_log (filter (let_through lv) sd ++ filter (let_through lv) bs) = loud lv).
  { intros sd. destruct bs as [|i bs]; [easy|]. pose proof (LG i (or_introl eq_refl)) as Li. destruct lv.
    - rewrite existsb_app, !quiet_logs. reflexivity.
    - rewrite existsb_app, (loud_all Normal (i :: bs)) by reflexivity. cbn [existsb]. rewrite Li. apply orb_true_r.
    - rewrite existsb_app, (loud_all _ (i :: bs)) by reflexivity. cbn [existsb]. rewrite Li. apply orb_true_r. }
  assert (RF : forall l : list note, Forall2 (like_note (moved p p')) l l) by (intros l; induction l; constructor; auto; constructor).
  exists d1, d1'. inversion B as [y Y1 Y2|e e' Y Y1 Y2|a a' b b' Y Z Y1 Y2]; subst.
  - destruct x' as [|e|pn|]; cbn [outcome_of]; (eexists; exists (filter (let_through lv) said), (filter (let_through lv) said'); do 2 eexists);
      rewrite ?X, <- ?app_assoc; (split; [reflexivity|split; [reflexivity|]]); (split; [exact A|split; [intros Z; now rewrite SD, SD'|apply RF]]).
  - cbn [outcome_of]. rewrite !X, <- !app_assoc. eexists; exists (filter (let_through lv) said), (filter (let_through lv) said'); do 2 eexists.
    split; [reflexivity|split; [reflexivity|]]. split; [exact A|]. split; [intros Z; now rewrite SD, SD'|].
    repeat apply Forall2_app; try apply RF. constructor; [|constructor]. now apply ln_report.
  - cbn [outcome_of]. rewrite !X, <- !app_assoc. eexists; exists (filter (let_through lv) said), (filter (let_through lv) said'); do 2 eexists.
    split; [reflexivity|split; [reflexivity|]]. split; [exact A|]. split; [intros ZZ; now rewrite SD, SD'|].
    repeat apply Forall2_app; try apply RF. constructor; [|constructor]. now apply ln_report.
Qed.
