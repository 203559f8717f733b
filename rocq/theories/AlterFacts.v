(** AlterFacts.v -- commands on disks that differ in the contents of some files (C103, C104). *)

From Coq Require Import String List NArith ZArith Bool Lia.
From Verif Require Import Text TextFacts Utf8 Json Base Syntax Parse Tree Interp Build Disk Cli Load Report Main.
From Verif Require Import SpecUtf8 SpecScope SpecTree SpecSite SpecDisk SpecAlike SpecProject SpecMain SpecSays.
From Verif Require Import Utf8Facts TreeFacts PathFacts AlikeFacts DiskFacts SaveFacts AgainFacts NewFacts ModeFacts MainFacts SaysFacts.
Import ListNotations.

(** ** Disks *)
Section Sib.
  Variable P : path -> Prop.
  Inductive sibs : path -> ent -> ent -> Prop :=
  | sbs_file p b : sibs p (EFile b) (EFile b)
  | sbs_data p b b' : P p -> sibs p (EFile b) (EFile b')
  | sbs_other p : sibs p EOther EOther
  | sbs_dir p l l' : Forall2 (fun x x' => fst x' = fst x /\ sibs (p ++ [fst x]) (snd x) (snd x')) l l' -> sibs p (EDir l) (EDir l').
  Notation all p := (Forall2 (fun x x' => fst x' = fst x /\ sibs (p ++ [fst x]) (snd x) (snd x'))).
  Lemma sibs_refl e : forall p, sibs p e e.
  Proof. induction e as [b| |l IH] using ent_ind2; intros p; try constructor. induction IH as [|x l X IH IHl]; constructor; auto. Qed.
  Lemma sibs_assoc p c l l' : all p l l' -> like_opt (sibs (p ++ [c])) (assoc c l) (assoc c l').
  Proof.
    intros H. induction H as [|[k e] [k' e'] l l' [N X] H IH]; cbn [assoc]; [exact I|]. cbn [fst snd] in *. subst k'. destruct (text_eqb k c) eqn:K; auto. apply text_eqb_eq in K. subst k. exact X.
  Qed.
  Lemma sibs_lookup p : forall p0 d d', sibs p0 d d' -> like_opt (sibs (p0 ++ p)) (lookup p d) (lookup p d').
  Proof.
    induction p as [|c p IH]; intros p0 d d' S; [cbn; now rewrite app_nil_r|]. cbn [lookup]. destruct S as [| | |p0 l l' F]; try exact I. pose proof (sibs_assoc p0 c _ _ F) as A.
    destruct (assoc c l) as [x|], (assoc c l') as [x'|]; cbn in A; try contradiction; [|exact I]. replace (p0 ++ c :: p) with ((p0 ++ [c]) ++ p) by now rewrite <- app_assoc. now apply IH.
  Qed.
  Lemma sibs_set p c x x' l l' : sibs (p ++ [c]) x x' -> all p l l' -> all p (set_entry c x l) (set_entry c x' l').
  Proof.
    intros X H. induction H as [|[k e] [k' e'] l l' [N Y] H IH]; cbn [set_entry]; [constructor; auto|]. cbn [fst snd] in *. subst k'. destruct (text_eqb k c) eqn:K.
    - apply text_eqb_eq in K. subst. constructor; auto.
    - constructor; auto.
  Qed.
  Lemma sibs_remove p c l l' : all p l l' -> all p (remove_entry c l) (remove_entry c l').
  Proof. intros H. induction H as [|[k e] [k' e'] l l' [N Y] H IH]; cbn [remove_entry]; [constructor|]. cbn [fst snd] in *. subst k'. destruct (text_eqb k c); auto. Qed.
  Lemma sibs_update p : forall p0 x x' d d', sibs p0 d d' -> like_opt (sibs (p0 ++ p)) x x' -> sibs p0 (update p x d) (update p x' d').
  Proof.
    induction p as [|c p IH]; intros p0 x x' d d' S X.
    - cbn [update]. rewrite app_nil_r in X. destruct x, x'; cbn in X; try contradiction; auto.
    - cbn [update]. destruct S as [| | |p0 l l' F]; try (constructor; auto; fail). destruct p as [|a p].
      + destruct x, x'; cbn in X; try contradiction; constructor; [now apply sibs_set|now apply sibs_remove].
      + pose proof (sibs_assoc p0 c _ _ F) as A. destruct (assoc c l) as [y|], (assoc c l') as [y'|]; cbn in A; try contradiction; constructor; auto. apply sibs_set; auto. apply IH; auto.
        now rewrite <- app_assoc.
  Qed.
  Lemma sibs_replace p : forall p0 e e' d, lookup p d = Some e -> sibs (p0 ++ p) e e' -> sibs p0 d (update p (Some e') d).
  Proof. intros p0 e e' d L S. rewrite <- (update_same p d e L) at 1. apply sibs_update; [apply sibs_refl|exact S]. Qed.
  Lemma sibs_dir_at p p0 d d' : sibs p0 d d' -> is_edir (lookup p d') = is_edir (lookup p d).
  Proof. intros S. pose proof (sibs_lookup p p0 d d' S) as L. destruct (lookup p d), (lookup p d'); cbn in L; try contradiction; auto. now destruct L. Qed.
  Inductive sibs_op : op -> op -> Prop :=
  | sos_same o : sibs_op o o
  | sos_write p b b' : P p -> sibs_op (OWrite p b) (OWrite p b').
  Lemma sibs_rmtree p d d' : sibs [] d d' -> match rmtree p d, rmtree p d' with IoOk a, IoOk a' => sibs [] a a' | IoErr, IoErr => True | _, _ => False end.
  Proof.
    intros S. unfold rmtree. destruct p as [|c p]; [exact I|]. pose proof (sibs_lookup (c :: p) [] d d' S) as L.
    destruct (lookup (c :: p) d) as [x|], (lookup (c :: p) d') as [x'|]; cbn in L; try contradiction; [|exact I]. destruct L; auto. now apply sibs_update.
  Qed.
  Lemma sibs_run o o' d d' : sibs_op o o' -> sibs [] d d' -> like_opt (sibs []) (run_op o d) (run_op o' d').
  Proof.
    intros O S.
    assert (W : forall p b b', sibs p (EFile b) (EFile b') -> like_opt (sibs []) (run_op (OWrite p b) d) (run_op (OWrite p b') d')).
    { intros p b b' B. cbn [run_op]. unfold write_file. rewrite (sibs_dir_at (parent p) _ _ _ S). pose proof (sibs_lookup p [] d d' S) as L.
      destruct (lookup p d) as [x|], (lookup p d') as [x'|]; cbn in L; try contradiction.
      - destruct L; cbn; try exact I; now apply sibs_update.
      - destruct (is_edir _); cbn; [now apply sibs_update|exact I]. }
    assert (M : forall p, match mkdir p d, mkdir p d' with IoOk a, IoOk a' => sibs [] a a' | IoExists, IoExists => True | IoErr, IoErr => True | _, _ => False end).
    { intros p. unfold mkdir. rewrite (sibs_dir_at (parent p) _ _ _ S). pose proof (sibs_lookup p [] d d' S) as L.
      destruct (lookup p d) as [x|], (lookup p d') as [x'|]; cbn in L; try contradiction; auto. destruct (is_edir _); auto. apply sibs_update; auto. cbn. apply sibs_refl. }
    destruct O as [o|p b b' N]; [|apply W; now constructor]. destruct o as [p|p|p|p b]; [| | |apply W; constructor]; cbn [run_op].
    - rewrite (sibs_dir_at p _ _ _ S). destruct (is_edir (lookup p d)) eqn:D; [|exact S]. pose proof (sibs_rmtree p d d' S) as R. destruct (rmtree p d), (rmtree p d'); try contradiction; auto; exact I.
    - specialize (M p). destruct (mkdir p d), (mkdir p d'); try contradiction; auto; exact I.
    - specialize (M p). destruct (mkdir p d), (mkdir p d'); try contradiction; auto; exact I.
  Qed.
  Lemma sibs_path o o' : sibs_op o o' -> op_path o' = op_path o.
  Proof. now intros []. Qed.
  Lemma sibs_ops ops ops' : Forall2 sibs_op ops ops' -> forall f d d', sibs [] d d' ->
    sibs [] (fst (run_ops f ops d)) (fst (run_ops f ops' d')) /\ snd (run_ops f ops' d') = snd (run_ops f ops d).
  Proof.
    intros H. induction H as [|o o' ops ops' O H IH]; intros f d d' S; cbn [run_ops]; [now split|]. pose proof (sibs_run o o' d d' O S) as R.
    assert (J : forall g, sibs [] (fst (match run_op o d with None => (d, false) | Some d1 => run_ops g ops d1 end)) (fst (match run_op o' d' with None => (d', false) | Some d1 => run_ops g ops' d1 end)) /\
      snd (match run_op o' d' with None => (d', false) | Some d1 => run_ops g ops' d1 end) = snd (match run_op o d with None => (d, false) | Some d1 => run_ops g ops d1 end)).
    { intros g. destruct (run_op o d), (run_op o' d'); cbn in R; try contradiction; [now apply IH|now split]. }
    destruct f as [[[|k] junk]|]; [|apply J|apply J]. rewrite (sibs_path _ _ O). cbn [fst snd]. split; [|reflexivity]. apply sibs_update; auto. destruct junk; cbn; auto. apply sibs_refl.
  Qed.
  Lemma sibs_what d d' : sibs [] d d' -> forall q, what q d' = what q d \/ (P q /\ exists b b', what q d = KFile b /\ what q d' = KFile b').
  Proof.
    intros S q. unfold what. pose proof (sibs_lookup q [] d d' S) as L. cbn [app] in L. destruct (lookup q d) as [x|], (lookup q d') as [x'|]; cbn in L; try contradiction; [|now left].
    destruct L as [p b|p b b' N|p|p l l' F]; try (now left). right. cbn. split; [exact N|]. now exists b, b'.
  Qed.

  (** ** What is saved *)
  Definition meta_alike (m m' : option value) : Prop := m' = m \/ (exists l l', m = Some (VObj l) /\ m' = Some (VObj l')) /\ forall dir s, P (dir ++ [s ++ lit ".json"]).
  Inductive outp : node -> node -> Prop :=
  | op_file name b b' pc meta meta' src : b' = b \/ is_template name \/ (data_name name /\ forall dir s, P (dir ++ [s ++ lit ".json"])) -> meta_alike meta meta' ->
      outp (NFile name b pc meta src) (NFile name b' pc meta' src)
  | op_dir name ch ch' src : Forall2 outp ch ch' -> outp (NDir name ch src) (NDir name ch' src).
  Lemma outp_refl n : outp n n.
  Proof. induction n as [name b pc meta src|name ch src IH] using node_ind2; constructor; [now left|now left|]. induction IH; constructor; auto. Qed.
  Lemma outp_names n n' : outp n n' -> n_name n' = n_name n /\ is_dir n' = is_dir n /\ n_source n' = n_source n.
  Proof. now intros []. Qed.
  Lemma opsr_refl l : Forall2 sibs_op l l.
  Proof. induction l; constructor; auto. constructor. Qed.
  Lemma recur_outp cf o : forall p o', outp o o' -> Forall2 sibs_op (save_recur cf p o) (save_recur cf p o').
  Proof.
    induction o as [name b pc meta src|name ch src IH] using node_ind2; intros p o' L; inversion L as [? ? b' ? ? ? ? X XM|? ? ch' ? H]; subst; cbn [save_recur].
    - destruct X as [->|[[->| ->]|[(s & ->) Y]]]; [apply opsr_refl|constructor|constructor|]. rewrite data_html. destruct (_ && _); [|constructor].
      assert (J : Forall2 sibs_op [OWrite (join_path p (s ++ lit ".json")) b] [OWrite (join_path p (s ++ lit ".json")) b']).
      { constructor; [|constructor]. destruct (join_data p (s ++ lit ".json")) as (dir & s1 & ->); [now exists s|]. constructor. apply Y. }
      destruct (cf_strip cf && _ && _); exact J.
    - constructor; [constructor|]. clear L. induction H as [|x x' ch ch' X H IHl]; cbn [flat_map]; [constructor|]. inversion IH; subst. apply Forall2_app; auto.
  Qed.
  Lemma meta_outp o : forall top o', outp o o' -> both eq (fun v v' => v' = v \/ forall dir s, P (dir ++ [s ++ lit ".json"])) (metadata_recur top o) (metadata_recur top o').
  Proof.
    induction o as [name b pc meta src|name ch src IH] using node_ind2; intros top o' L; inversion L as [? ? b' ? ? meta' ? B M|? ? ch' ? H]; subst; cbn [metadata_recur].
    - destruct M as [->|[(l & l' & -> & ->) M]]; [|now right]. destruct meta as [[]|]; cbn; auto.
    - apply (both_bind _ (Forall2 (fun v v' => v' = v \/ forall dir s, P (dir ++ [s ++ lit ".json"])))).
      + apply (both_list _ outp); auto. intros x x' I X. rewrite Forall_forall in IH. now apply IH.
      + intros l l' F. assert (E : l' = l \/ forall dir s, P (dir ++ [s ++ lit ".json"])).
        { clear -F. induction F as [|v v' l l' [->|V] F [->|IH]]; auto. }
        cbn. destruct E as [->|E]; auto.
  Qed.
  (** Merging. *)
  Definition merges (oc : node) : Prop := forall a a', outp a a' -> outp (fst (merge a oc)) (fst (merge a' oc)) /\ snd (merge a' oc) = snd (merge a oc).
  Lemma step_outp oc c c' : merges oc -> outp c c' -> outp (fst (child_step oc c)) (fst (child_step oc c')) /\ snd (child_step oc c') = snd (child_step oc c).
  Proof.
    intros G C. unfold child_step. destruct (outp_names _ _ C) as (_ & C1 & C2). rewrite C1, C2. destruct (is_dir c && is_dir oc); [now apply G|]. now split.
  Qed.
  Lemma first_outp oc ch ch' : merges oc -> Forall2 outp ch ch' ->
    Forall2 outp (fst (update_first oc (child_step oc) ch)) (fst (update_first oc (child_step oc) ch')) /\ snd (update_first oc (child_step oc) ch') = snd (update_first oc (child_step oc) ch).
  Proof.
    intros G. induction 1 as [|c c' ch ch' C H IH]; cbn [update_first]; [split; [constructor; [apply outp_refl|constructor]|reflexivity]|].
    rewrite (proj1 (outp_names _ _ C)). destruct (text_eqb _ _).
    - destruct (step_outp oc c c' G C) as [S1 S2]. destruct (child_step oc c), (child_step oc c'). cbn [fst snd] in *. split; [now constructor|exact S2].
    - destruct IH as [I1 I2]. fold (update_first oc (child_step oc)).
      destruct (update_first oc (child_step oc) ch), (update_first oc (child_step oc) ch'). cbn [fst snd] in *. split; [now constructor|exact I2].
  Qed.
  Lemma list_outp och : Forall merges och -> forall ch ch', Forall2 outp ch ch' ->
    Forall2 outp (fst (merge_list ch och)) (fst (merge_list ch' och)) /\ snd (merge_list ch' och) = snd (merge_list ch och).
  Proof.
    induction 1 as [|oc och G GO IH]; intros ch ch' C; cbn [merge_list]; [now split|].
    destruct (first_outp oc ch ch' G C) as [F1 F2]. destruct (update_first oc (child_step oc) ch) as [r u], (update_first oc (child_step oc) ch') as [r' u']. cbn [fst snd] in *. subst u'.
    destruct u; [now apply IH|now split|now split].
  Qed.
  Lemma merge_outp b : merges b.
  Proof.
    induction b as [name b pc meta src|name och src IH] using node_ind2; intros a a' A.
    - destruct A; cbn; (split; [now constructor|reflexivity]).
    - destruct A as [|n ch ch' s C]; [cbn; split; [now constructor|reflexivity]|].
      rewrite !merge_dirs_eq. destruct (list_outp och IH ch ch' C) as [L1 L2]. destruct (merge_list ch och), (merge_list ch' och). cbn [fst snd] in *. split; [now constructor|exact L2].
  Qed.
  Definition akin (s s' : stuart) : Prop := st_config s' = st_config s /\ like_opt outp (st_output s) (st_output s').
  Lemma merge_akin n s s' : akin s s' -> akin (fst (merge_output n s)) (fst (merge_output n s')) /\ snd (merge_output n s') = snd (merge_output n s).
  Proof.
    intros [C O]. unfold merge_output. destruct (st_output s) as [o|] eqn:E, (st_output s') as [o'|] eqn:E'; cbn in O; try contradiction.
    - destruct (merge_outp n o o' O) as [M1 M2]. destruct (merge o n) as [m u], (merge o' n) as [m' u']. cbn [fst snd] in *. subst u'. split; [split; [exact C|exact M1]|reflexivity].
    - cbn. split; [|reflexivity]. split; [exact C|]. now rewrite E, E'.
  Qed.
  Lemma dirs_akin h dir names d : forall s s', akin s s' -> akin (fst (merge_dirs h dir names d s)) (fst (merge_dirs h dir names d s')) /\ snd (merge_dirs h dir names d s') = snd (merge_dirs h dir names d s).
  Proof.
    induction names as [|n names IH]; intros s s' A; cbn [merge_dirs]; [now split|]. destruct (lookup _ d) as [e|]; [|now apply IH]. destruct (node_new _ _ _ _ _ _) as [t| | |]; try now split.
    destruct (merge_akin t s s' A) as [M1 M2]. destruct (merge_output t s) as [s1 r], (merge_output t s') as [s1' r']. cbn [fst snd] in *. subst r'. destruct r; [now apply IH|now split|now split|now split].
  Qed.
  Lemma save_akin f s s' p d d' : akin s s' -> sibs [] d d' -> sibs [] (fst (save f s p d)) (fst (save f s' p d')) /\ snd (save f s' p d') = snd (save f s p d).
  Proof.
    intros [C O] S. unfold save. rewrite C. destruct (st_output s) as [o|], (st_output s') as [o'|]; cbn in O; try contradiction; [|now split].
    destruct O as [|nm ch ch' src H]; cbn [save_ops]; [now split|].
    assert (F : Forall2 sibs_op (ORmTreeIfDir p :: OMkDir p :: flat_map (save_recur (st_config s) p) ch) (ORmTreeIfDir p :: OMkDir p :: flat_map (save_recur (st_config s) p) ch')).
    { constructor; [constructor|]. constructor; [constructor|]. induction H as [|x x' ch ch' X H IHl]; cbn [flat_map]; [constructor|]. apply Forall2_app; auto. now apply recur_outp. }
    destruct (sibs_ops _ _ F f d d' S) as [G1 G2]. destruct (run_ops f _ d) as [d1 ok1], (run_ops f (_ :: _ :: flat_map _ ch') d') as [d2 ok2]. cbn [fst snd] in *. subst. now split.
  Qed.
  Lemma meta_akin ser f s s' dir d d' : akin s s' -> sibs [] d d' ->
    sibs [] (fst (save_metadata ser f s (dir ++ [lit "metadata.json"]) d)) (fst (save_metadata ser f s' (dir ++ [lit "metadata.json"]) d')) /\
    snd (save_metadata ser f s' (dir ++ [lit "metadata.json"]) d') = snd (save_metadata ser f s (dir ++ [lit "metadata.json"]) d).
  Proof.
    intros [C O] S. unfold save_metadata. assert (Q : both eq (fun v v' => v' = v \/ forall dir s, P (dir ++ [s ++ lit ".json"])) (metadata_value s) (metadata_value s')).
    { unfold metadata_value. rewrite C. destruct (negb _); [reflexivity|]. destruct (st_output s) as [o|], (st_output s') as [o'|]; cbn in O; try contradiction; [|reflexivity].
      apply (both_bind _ (fun v v' => v' = v \/ forall dir s, P (dir ++ [s ++ lit ".json"]))); [now apply meta_outp|]. intros v v' [->|V]; cbn; auto. }
    destruct (metadata_value s) as [v| | |], (metadata_value s') as [v'| | |]; cbn in Q; try contradiction; subst; try now split.
    assert (F : Forall2 sibs_op [OWrite (dir ++ [lit "metadata.json"]) (ser v)] [OWrite (dir ++ [lit "metadata.json"]) (ser v')]).
    { constructor; [|constructor]. destruct Q as [->|Q]; [constructor|]. constructor. exact (Q dir (lit "metadata")). }
    destruct (sibs_ops _ _ F f d d' S) as [G1 G2]. destruct (run_ops f _ d) as [d1 ok1], (run_ops f _ d') as [d2 ok2]. cbn [fst snd] in *. subst. now split.
  Qed.
  Lemma cli_akin m f c d d' : cx_pre c = [] -> cx_post c = [] -> sibs [] d d' -> (forall n, In n [lit "static"; lit "temp"] -> lookup (cx_dir c ++ [n]) d' = lookup (cx_dir c ++ [n]) d) ->
    let b := build (m_host m) (m_osenv m) (cx_mode c) (source_at (cx_dir c ++ [lit "content"]) d) (cx_stuart c) in
    let b' := build (m_host m) (m_osenv m) (cx_mode c) (source_at (cx_dir c ++ [lit "content"]) d') (cx_stuart c) in
    akin (fst b) (fst b') -> snd b' = snd b ->
    snd (cli_build m f c d') = snd (cli_build m f c d) /\ sibs [] (snd (fst (cli_build m f c d))) (snd (fst (cli_build m f c d'))).
  Proof.
    intros Pr Po S L. cbv zeta. intros A R. unfold cli_build. rewrite Pr, Po. cbn [run_scripts]. unfold build_and_merge.
    destruct (build _ _ _ (source_at _ d) _) as [s r], (build _ _ _ (source_at _ d') _) as [s' r']. cbn [fst snd] in A, R. subst r'. destruct r as [[]| | |]; try (now split).
    rewrite (merge_dirs_same (m_host m) (cx_dir c) _ d d' L). destruct (dirs_akin (m_host m) (cx_dir c) [lit "static"; lit "temp"] d s s' A) as [D1 D2].
    destruct (merge_dirs _ _ _ d s) as [s1 r1], (merge_dirs _ _ _ d s') as [s1' r1']. cbn [fst snd] in D1, D2. subst r1'. destruct r1 as [[]| | |]; try (now split).
    assert (T : sibs [] (remove_temp (fl_temp f) (cx_dir c ++ [lit "temp"]) d) (remove_temp (fl_temp f) (cx_dir c ++ [lit "temp"]) d')).
    { unfold remove_temp. destruct (fl_temp f) as [j|]; [apply sibs_update; auto; destruct j; cbn; auto; apply sibs_refl|].
      pose proof (sibs_rmtree (cx_dir c ++ [lit "temp"]) d d' S) as Q. destruct (rmtree _ d), (rmtree _ d'); try contradiction; auto. }
    destruct (save_akin (fl_save f) s1 s1' (join_path (cx_dir c) (cx_output c)) _ _ D1 T) as [V1 V2].
    destruct (save _ s1 _ _) as [d3 r3], (save _ s1' _ _) as [d3' r3']. cbn [fst snd] in V1, V2. subst r3'. destruct r3 as [[]| | |]; try (now split).
    rewrite (proj1 D1). destruct (cf_meta (st_config s1)); [|now split].
    destruct (meta_akin (m_ser m) (fl_meta f) s1 s1' (cx_dir c) d3 d3' D1 V1) as [W1 W2].
    destruct (save_metadata _ _ s1 _ d3) as [d4 r4], (save_metadata _ _ s1' _ d3') as [d4' r4']. cbn [fst snd] in W1, W2. subst r4'. destruct r4 as [[]| | |]; now split.
  Qed.
End Sib.

(** ** Whole commands *)
Section Command.
  Variable P : path -> Prop.
  Variables (w : Main.world) (lv : level) (manifest output : text) (dir : path) (name : text) (r : raw_config) (deps : list (text * text)) (ps : list plugin) (d d' e e' : ent).
  Hypothesis M : meant (w_cwd w) manifest (dir ++ [name]).
  Hypothesis MS : manifest_says w (dir ++ [name]) d r deps.
  Hypothesis NC : name <> lit "content".
  Hypothesis L : loads_all (lo_js (w_loader w)) (load_from_source (w_loader w) (w_load_faults w) dir) deps d d ps.
  Hypothesis L' : loads_all (lo_js (w_loader w)) (load_from_source (w_loader w) (w_load_faults w) dir) deps d' d' ps.
  Hypothesis NS : what (dir ++ [lit "scripts"]) d = KNone.
  Hypothesis Ed : edited (dir ++ [lit "content"]) e e' d d'.
  Lemma beside n : n <> lit "content" -> lookup (dir ++ [n]) d' = lookup (dir ++ [n]) d.
  Proof.
    intros N. rewrite (proj2 Ed). apply lookup_other; intros (x & X); rewrite <- app_assoc in X; apply app_inv_head in X; injection X; congruence.
  Qed.
  Lemma inside' : lookup (dir ++ [lit "content"]) d' = Some e'.
  Proof. rewrite (proj2 Ed). exact (lookup_stays _ _ _ _ (proj1 Ed)). Qed.
  Lemma says' : manifest_says w (dir ++ [name]) d' r deps.
  Proof. destruct MS as (b & t & W & X). exists b, t. split; [|exact X]. unfold what in *. now rewrite (beside name NC). Qed.
  Lemma scripts' : what (dir ++ [lit "scripts"]) d' = KNone.
  Proof. unfold what in *. now rewrite (beside (lit "scripts")) by discriminate. Qed.
  Lemma edited_sym : edited (dir ++ [lit "content"]) e' e d' d.
  Proof. split; [exact inside'|]. rewrite (proj2 Ed), update_again. symmetry. exact (update_same _ _ _ (proj1 Ed)). Qed.
  Notation b := (build (w_host w) (w_osenv w) (lit "production") (SourceDir (dir ++ [lit "content"]) (lit "content") (Some e)) (stuart_new (to_config r) ps)).
  Notation b' := (build (w_host w) (w_osenv w) (lit "production") (SourceDir (dir ++ [lit "content"]) (lit "content") (Some e')) (stuart_new (to_config r) ps)).
  Notation cli x := (cli_build (machine_of w (dir ++ [name]) output (lit "production")) (w_build_faults w 0) (init r ps dir output (lit "production") x) x).
  Lemma main_akin : sibs P (dir ++ [lit "content"]) e e' -> akin P (fst b) (fst b') -> snd b' = snd b ->
    exists d1 d1' x x' items items', main w lv (CmdBuild manifest output) d = (d1, x, items) /\ main w lv (CmdBuild manifest output) d' = (d1', x', items') /\ same_end x x' items items' /\ sibs P [] d1 d1'.
  Proof.
    intros S A R. destruct (no_script_lists dir d NS) as [S1 S2]. assert (I : init r ps dir output (lit "production") d' = init r ps dir output (lit "production") d).
    { unfold init. now rewrite (beside (lit "scripts")) by discriminate. }
    pose proof (MainFacts.main_build w lv manifest output d dir name r deps d ps M MS L) as B. pose proof (MainFacts.main_build w lv manifest output d' dir name r deps d' ps M says' L') as B'. rewrite I in B'.
    pose proof (cli_akin P (machine_of w (dir ++ [name]) output (lit "production")) (w_build_faults w 0) (init r ps dir output (lit "production") d) d d') as C.
    cbn [cx_pre cx_post init cx_dir cx_mode cx_stuart] in C. specialize (C S1 S2). destruct Ed as [E D']. assert (Sd : sibs P [] d d') by (rewrite D'; now apply (sibs_replace P _ [] e)). specialize (C Sd).
    specialize (C ltac:(intros n [<-|[<-|[]]]; apply beside; discriminate)). cbv zeta in C. unfold source_at in C. rewrite last_last, E, inside' in C. cbn [machine_of m_host m_osenv] in C. specialize (C A R).
    destruct (cli_build _ _ _ d) as [[c1 d1] x] eqn:Q. destruct (cli_build _ _ _ d') as [[c1' d1'] x'] eqn:Q'. cbn [fst snd] in C. destruct C as [-> C].
    specialize (B c1 d1 x eq_refl). specialize (B' c1' d1' x eq_refl).
    destruct x as [|er|pn|]; destruct B as [it B], B' as [it' B']; rewrite B, B'; exists d1, d1'; do 4 eexists; (split; [reflexivity|split; [reflexivity|split; [split; [reflexivity|]|exact C]]]); try discriminate.
    intros _. now exists (main_error_of er), it, it'.
  Qed.
  Lemma main_built d1 items : main w lv (CmdBuild manifest output) d = (d1, Exit 0, items) -> snd b = Ok tt.
  Proof.
    intros X. apply (main_build_inv w lv manifest output d dir name r deps d ps d1 items M MS L) in X as (c' & X). destruct (no_script_lists dir d NS) as [S1 S2].
    unfold cli_build in X. cbn [cx_pre init] in X. rewrite S1 in X. cbn [run_scripts] in X. unfold build_and_merge in X. cbn [cx_mode cx_dir cx_stuart init machine_of m_host m_osenv] in X. unfold source_at in X. rewrite last_last, (proj1 Ed) in X.
    destruct b as [s x]. destruct x as [[]| | |]; try discriminate. reflexivity.
  Qed.
End Command.

(** ** Data files and posts *)
Lemma says_sibs h content e : forall name e' k, above content (k ++ [name]) -> sources_say h name e e' -> sibs (data_or_post content) (k ++ [name]) e e'.
Proof.
  induction e as [b| |l IH] using ent_ind2; intros name e' k A S; inversion S as [? ? b' F|? ? l' F|]; subst; [|constructor|].
  - destruct F as [b|b b' t t' (s & -> & _) _ _ _|b b' t t' fm body (s & -> & _) _ _ _ _]; [constructor| |]; apply sbs_data; exists k, s; [now left|right; now split].
  - constructor. clear S. induction F as [|x x' l l' [N Q] F IHl]; constructor; inversion IH; subst; auto. split; auto. apply H1; auto. destruct A as (z & Z). exists (z ++ [fst x]). now rewrite Z, <- !app_assoc.
Qed.
Lemma says_outp content o : forall o', output_says o o' -> outp (data_or_post content) o o'.
Proof.
  induction o as [name b pc meta src|name ch src IH] using node_ind2; intros o' L; inversion L as [|? ? b' ? ? ? X|? ? ch' ? H]; subst; constructor; try (now left).
  - right; right. split; [now apply ext_data|]. intros k s. exists k, s. now left.
  - clear L. induction H; constructor; inversion IH; subst; auto.
Qed.
Lemma says_command w lv manifest output dir name r deps ps d d' e e' : meant (w_cwd w) manifest (dir ++ [name]) -> manifest_says w (dir ++ [name]) d r deps -> name <> lit "content" ->
  loads_all (lo_js (w_loader w)) (load_from_source (w_loader w) (w_load_faults w) dir) deps d d ps -> loads_all (lo_js (w_loader w)) (load_from_source (w_loader w) (w_load_faults w) dir) deps d' d' ps ->
  what (dir ++ [lit "scripts"]) d = KNone -> edited (dir ++ [lit "content"]) e e' d d' -> sources_say (w_host w) (lit "content") e e' ->
  exists d1 d1' x x' items items', main w lv (CmdBuild manifest output) d = (d1, x, items) /\ main w lv (CmdBuild manifest output) d' = (d1', x', items') /\ same_end x x' items items' /\
    forall q, what q d1' = what q d1 \/ (data_or_post (dir ++ [lit "content"]) q /\ exists b b', what q d1 = KFile b /\ what q d1' = KFile b').
Proof.
  intros M MS NC L L' NS Ed S. destruct (says_build (w_host w) (w_osenv w) (lit "production") (dir ++ [lit "content"]) (lit "content") e e' (stuart_new (to_config r) ps) S) as [B1 B2].
  destruct (main_akin (data_or_post (dir ++ [lit "content"])) w lv manifest output dir name r deps ps d d' e e' M MS NC L L' NS Ed) as (d1 & d1' & x & x' & it & it' & X & X' & E & Z).
  - apply (says_sibs (w_host w)); auto. exists []. now rewrite app_nil_r.
  - split; [now rewrite !kept_settings|]. destruct (st_output (fst (build _ _ _ (SourceDir _ _ (Some e)) _))), (st_output (fst (build _ _ _ (SourceDir _ _ (Some e')) _))); cbn in B2 |- *; try contradiction; auto. now apply says_outp.
  - exact B1.
  - exists d1, d1', x, x', it, it'. split; [exact X|]. split; [exact X'|]. split; [exact E|]. now apply sibs_what.
Qed.
