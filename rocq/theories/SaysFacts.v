(** SaysFacts.v -- builds of sources that say the same (C104). *)

From Coq Require Import String List NArith ZArith Bool Lia.
From Verif Require Import Text TextFacts Utf8 Json Base Syntax Parse Tree Interp Build Disk.
From Verif Require Import SpecUtf8 SpecScope SpecTree SpecSite SpecDisk SpecAlike SpecReads SpecSays.
From Verif Require Import Utf8Facts TreeFacts MarkdownFacts ReadsFacts AlikeFacts DiskFacts SaveFacts LineRun.
Import ListNotations.

Inductive kin : node -> node -> Prop :=
| kn_file name b pc meta src : kin (NFile name b pc meta src) (NFile name b pc meta src)
| kn_post name b b' m meta src : is_template_name name = false -> kin (NFile name b (PMarkdown m) meta src) (NFile name b' (PMarkdown m) meta src)
| kn_data name b b' v meta src : has_ext name (lit "json") -> kin (NFile name b (PJson v) meta src) (NFile name b' (PJson v) meta src)
| kn_dir name ch ch' src : Forall2 kin ch ch' -> kin (NDir name ch src) (NDir name ch' src).
Lemma kin_name n n' : kin n n' -> n_name n' = n_name n.
Proof. now intros []. Qed.
Lemma kin_parsed n n' : kin n n' -> n_parsed n' = n_parsed n.
Proof. now intros []. Qed.
Lemma kin_child c ch ch' : Forall2 kin ch ch' -> like_opt kin (find_child c ch) (find_child c ch').
Proof. intros H. unfold find_child. induction H as [|n n' ch ch' N H IH]; cbn [find]; [exact I|]. rewrite (kin_name _ _ N). now destruct (text_eqb _ _). Qed.
Lemma kin_walk p : forall n n', kin n n' -> like_opt kin (walk n p) (walk n' p).
Proof.
  induction p as [|c p IH]; intros n n' N; cbn [walk]; auto. destruct N as [| | |name ch ch' src H]; try exact I. cbn [n_children].
  pose proof (kin_child c _ _ H) as L. destruct (find_child c ch), (find_child c ch'); cbn in L; try contradiction; auto.
Qed.
Lemma kin_values {E} ch ch' : Forall2 kin ch ch' -> @md_values E ch' = md_values ch.
Proof. intros H. induction H as [|n n' ch ch' N H IH]; cbn [md_values]; auto. rewrite (kin_parsed _ _ N), IH. reflexivity. Qed.
Lemma kin_run h n n' toks s : kin n n' -> Interp.run (World h n' toks) s = Interp.run (World h n toks) s.
Proof.
  intros N. assert (A : forall p, like_opt kin (get_at_path n p) (get_at_path n' p)) by (intros p; unfold get_at_path; destruct (components p); [now apply kin_walk|exact I]).
  apply run_same; auto.
  - intros f st. unfold for_values. cbn [w_input]. specialize (A (ff_src f)). destruct (ff_type f); auto;
    (destruct (get_at_path n _) as [m|], (get_at_path n' _) as [m'|]; cbn in A; try contradiction; auto; destruct A; auto). now apply kin_values.
  - intros v file s0. unfold exec_import. cbn [w_input]. specialize (A file). destruct (get_at_path n _) as [m|], (get_at_path n' _) as [m'|]; cbn in A; try contradiction; auto; destruct A; auto.
Qed.
Definition kin_pr (pr pr' : processor) : Prop := pr_host pr' = pr_host pr /\ pr_meta pr' = pr_meta pr /\ pr_base pr' = pr_base pr /\ like_opt kin (pr_input pr) (pr_input pr').
Lemma kin_phase pr pr' toks st secs : kin_pr pr pr' -> phase pr' toks st secs = phase pr toks st secs.
Proof. intros (H & _ & _ & N). unfold phase. rewrite H. destruct (pr_input pr), (pr_input pr'); cbn in N; try contradiction; auto. now apply kin_run. Qed.
Lemma kin_phases pr pr' src toks root f b : kin_pr pr pr' -> two_phases pr' src toks root f b = two_phases pr src toks root f b.
Proof.
  intros P. unfold two_phases. rewrite (kin_phase pr pr') by auto. destruct (phase pr toks _ _) as [s| | |]; cbn [bind]; auto. destruct (sc_stack s) as [|x r]; auto. destruct (is_base x); auto.
  now rewrite (kin_phase pr pr').
Qed.
Notation sims := (both (@eq error)).
Lemma says_refl n : output_says n n.
Proof. induction n as [name b pc meta src|name ch src IH] using node_ind2; constructor. induction IH; constructor; auto. Qed.
Lemma sims_refl (r : res error node) : sims output_says r r.
Proof. destruct r; cbn; auto. apply says_refl. Qed.
Lemma kin_process pr pr' e n n' : kin_pr pr pr' -> kin n n' -> (forall name ch src, n <> NDir name ch src) ->
  sims output_says (build_node pr e n) (build_node pr' e n').
Proof.
  intros P N D. assert (Q : forall src toks, process_html pr' e src toks = process_html pr e src toks).
  { intros src toks. unfold process_html. destruct (ev_root e); cbn [ok_or bind]; auto. rewrite (proj1 (proj2 (proj2 P))). destruct (pr_base pr); auto. now rewrite (kin_phases pr pr'). }
  assert (Q2 : forall src name m, process_markdown pr' e src name m = process_markdown pr e src name m).
  { intros src name m. unfold process_markdown. destruct (ev_root e); cbn [ok_or bind]; auto. destruct (ev_md e); cbn [ok_or bind]; auto. rewrite (proj1 (proj2 (proj2 P))). destruct (pr_base pr); auto.
    destruct (md_to_value m); cbn [bind]; auto. now rewrite (kin_phases pr pr'). }
  destruct N as [name b pc meta src|name b b' m meta src T|name b b' v meta src X|name ch ch' src H]; [| | |exfalso; now apply (D name ch src)]; cbn [build_node]; unfold process_file; rewrite (proj1 (proj2 P)).
  - match goal with |- sims _ ?r ?r' => replace r' with r; [apply sims_refl|] end. destruct (is_template_name name); auto. destruct pc; auto; [now rewrite Q|now rewrite Q2].
  - rewrite T, Q2. match goal with |- sims _ ?r ?r' => replace r' with r; [apply sims_refl|] end.
    unfold process_markdown. destruct (ev_root e); cbn [ok_or bind map_err]; auto. destruct (ev_md e); cbn [ok_or bind map_err]; auto. destruct (pr_base pr); auto.
    destruct (md_to_value m); cbn [bind map_err]; auto. destruct (two_phases _ _ _ _ _ _); cbn [bind map_err]; auto. destruct (strip_suffix _ _); auto.
  - destruct (is_template_name name); cbn; now constructor.
Qed.
Lemma kin_update ch ch' : Forall2 kin ch ch' -> forall e, env_update e ch' = env_update e ch.
Proof.
  intros H. unfold env_update. induction H as [|n n' ch ch' N H IH]; intros e; cbn [fold_left]; auto. rewrite IH. f_equal. unfold env_child. now rewrite (kin_name _ _ N), (kin_parsed _ _ N).
Qed.
Lemma kin_build n : forall pr pr' e n', kin_pr pr pr' -> kin n n' -> sims output_says (build_node pr e n) (build_node pr' e n').
Proof.
  induction n as [name b pc meta src|name ch src IH] using node_ind2; intros pr pr' e n' P N; [apply kin_process; auto; discriminate|].
  inversion N as [| | |? ? ch' ? H]; subst; cbn [build_node]. rewrite (kin_update _ _ H). apply (both_bind _ (Forall2 output_says)).
  - apply (both_list _ kin); auto. intros x x' I X. rewrite Forall_forall in IH. now apply IH.
  - intros l l' L. cbn. now constructor.
Qed.
Lemma kin_preprocess n : forall pr pr' n', kin_pr pr pr' -> kin n n' -> sims kin (preprocess pr n) (preprocess pr' n').
Proof.
  induction n as [name b pc meta src|name ch src IH] using node_ind2; intros pr pr' n' P N.
  - assert (Q : forall m, preprocess_markdown pr' src m = preprocess_markdown pr src m).
    { intros m. unfold preprocess_markdown. rewrite (proj1 (proj2 (proj2 P))), (proj1 P). destruct (pr_base pr); auto. now rewrite (kin_phase pr pr'). }
    inversion N as [|? ? b' m ? ? T|? ? b' v ? ? X|]; subst; cbn [preprocess].
    + destruct pc as [t|m|v|c| |]; try constructor. rewrite Q. destruct (preprocess_markdown pr src m); cbn; auto. constructor.
    + rewrite Q. destruct (preprocess_markdown pr src m); cbn; auto. now constructor.
    + cbn. now constructor.
  - inversion N as [| | |? ? ch' ? H]; subst; cbn [preprocess]. apply (both_bind _ (Forall2 kin)).
    + apply (both_list _ kin); auto. intros x x' I X. rewrite Forall_forall in IH. now apply IH.
    + intros l l' L. cbn. now constructor.
Qed.
Lemma kin_create h ps e : forall e' p name, sources_say h name e e' -> sims kin (create_from h ps true p name e) (create_from h ps true p name e').
Proof.
  induction e as [b| |l IH] using ent_ind2; intros e' p name S; inversion S as [? ? b' F|? ? l' F|]; subst; cbn [create_from].
  - destruct F as [b|b b' t t' X U U' J|b b' t t' fm body X U U' M M'].
    + destruct (create_from_file h ps true p name b) as [n| | |] eqn:C; cbn; auto. destruct (create_file_kind _ _ _ _ _ _ C) as (pc & -> & _). constructor.
    + pose proof X as X0. apply extension_spec in X. apply decoding in U. apply decoding in U'. unfold create_from_file. rewrite X, U, U'. change (text_eqb (lit "json") (lit "html")) with false.
      change (text_eqb (lit "json") (lit "md")) with false. change (text_eqb (lit "json") (lit "json")) with true. cbv iota. cbn [ok_or bind]. rewrite J. destruct (h_json h t); cbn; auto. now constructor.
    + assert (T := post_template _ X). apply extension_spec in X. apply decoding in U. apply decoding in U'. unfold create_from_file. rewrite X, U, U'. change (text_eqb (lit "md") (lit "html")) with false.
      change (text_eqb (lit "md") (lit "md")) with true. cbv iota. cbn [ok_or bind]. rewrite (parts_parse _ _ _ _ _ _ M), (parts_parse _ _ _ _ _ _ M'). destruct (md_result _ _ p fm body); cbn; auto. now constructor.
  - reflexivity.
  - apply (both_bind _ (Forall2 kin)); [|intros; cbn; now constructor]. eapply both_list; [exact F|]. intros x x' I [N Q]. rewrite N. rewrite Forall_forall in IH. now apply IH.
Qed.
Lemma says_build h osenv mode p name e e' st : sources_say h name e e' ->
  snd (build h osenv mode (SourceDir p name (Some e')) st) = snd (build h osenv mode (SourceDir p name (Some e)) st) /\
  like_opt output_says (st_output (fst (build h osenv mode (SourceDir p name (Some e)) st))) (st_output (fst (build h osenv mode (SourceDir p name (Some e')) st))).
Proof.
  intros S. unfold build. cbn [sd_path sd_name sd_ent].
  assert (R : like_opt output_says (st_output st) (st_output st)) by (destruct (st_output st); cbn; auto; apply says_refl).
  assert (C : sims kin (node_new h (st_plugins st) true p name (Some e)) (node_new h (st_plugins st) true p name (Some e'))).
  { unfold node_new. pose proof (kin_create h (st_plugins st) e e' p name S) as C. destruct S; auto; reflexivity. }
  destruct (node_new _ _ _ _ _ (Some e)) as [n|x|q|], (node_new _ _ _ _ _ (Some e')) as [n'|x'|q'|]; cbn in C; try contradiction; subst; auto.
  set (meta := cf_meta (st_config st)). set (vars := build_vars osenv mode).
  assert (P := kin_preprocess n (Processor h (Some n) (Some (base_frame vars)) meta) (Processor h (Some n') (Some (base_frame vars)) meta) n' ltac:(repeat split; auto) C).
  unfold build_tree. destruct (preprocess _ n) as [i|x|q|], (preprocess _ n') as [i'|x'|q'|]; cbn in P; try contradiction; subst; auto. cbn [bind].
  destruct P as [nm b pc mt src|nm b b' m mt src T|nm b b' v mt src X|nm ch ch' src H]; cbn [n_children]; auto. rewrite (kin_update _ _ H).
  assert (B := kin_build (NDir nm ch src) (Processor h (Some (NDir nm ch src)) (Some (base_frame vars)) meta) (Processor h (Some (NDir nm ch' src)) (Some (base_frame vars)) meta)
    (env_update (Env vars None None) ch) (NDir nm ch' src)).
  assert (B1 : kin (NDir nm ch src) (NDir nm ch' src)) by now constructor. specialize (B ltac:(repeat split; auto) B1). clear B1. cbn [pr_host] in B |- *.

  destruct (build_node _ _ (NDir nm ch src)), (build_node _ _ (NDir nm ch' src)); cbn in B; try contradiction; subst; cbn; auto.
Qed.

(** ** What is written to disk *)
Definition data_name (name : text) : Prop := exists s, name = s ++ lit ".json".
Inductive sib : text -> ent -> ent -> Prop :=
| sb_file name b : sib name (EFile b) (EFile b)
| sb_data name b b' : data_name name -> sib name (EFile b) (EFile b')
| sb_other name : sib name EOther EOther
| sb_dir name l l' : Forall2 (fun x x' => fst x' = fst x /\ sib (fst x) (snd x) (snd x')) l l' -> sib name (EDir l) (EDir l').
Lemma sib_refl e : forall name, sib name e e.
Proof. induction e as [b| |l IH] using ent_ind2; intros name; try constructor. induction IH as [|x l X IH IHl]; constructor; auto. Qed.
Lemma sib_assoc c l l' : Forall2 (fun x x' => fst x' = fst x /\ sib (fst x) (snd x) (snd x')) l l' -> like_opt (sib c) (assoc c l) (assoc c l').
Proof.
  intros H. induction H as [|[k e] [k' e'] l l' [N X] H IH]; cbn [assoc]; [exact I|]. cbn [fst snd] in *. subst k'. destruct (text_eqb k c) eqn:K; auto. apply text_eqb_eq in K. subst k. exact X.
Qed.
Lemma last_other {A} (a : A) l d d' : last (a :: l) d = last (a :: l) d'.
Proof. revert a. induction l as [|b l IH]; intros a; [reflexivity|]. exact (IH b). Qed.
Lemma sib_lookup p : forall name d d', sib name d d' -> like_opt (sib (last p name)) (lookup p d) (lookup p d').
Proof.
  induction p as [|c p IH]; intros name d d' S; [exact S|]. cbn [lookup]. destruct S as [| | |name l l' F]; try exact I. pose proof (sib_assoc c _ _ F) as A.
  destruct (assoc c l) as [x|], (assoc c l') as [x'|]; cbn in A; try contradiction; [|exact I]. replace (last (c :: p) name) with (last p c); [now apply IH|].
  destruct p as [|a p]; [reflexivity|]. exact (last_other a p c name).
Qed.
Lemma sib_set c x x' l l' : sib c x x' -> Forall2 (fun x x' => fst x' = fst x /\ sib (fst x) (snd x) (snd x')) l l' ->
  Forall2 (fun x x' => fst x' = fst x /\ sib (fst x) (snd x) (snd x')) (set_entry c x l) (set_entry c x' l').
Proof.
  intros X H. induction H as [|[k e] [k' e'] l l' [N Y] H IH]; cbn [set_entry]; [constructor; auto|]. cbn [fst snd] in *. subst k'. destruct (text_eqb k c) eqn:K.
  - apply text_eqb_eq in K. subst. constructor; auto.
  - constructor; auto.
Qed.
Lemma sib_remove c l l' : Forall2 (fun x x' => fst x' = fst x /\ sib (fst x) (snd x) (snd x')) l l' ->
  Forall2 (fun x x' => fst x' = fst x /\ sib (fst x) (snd x) (snd x')) (remove_entry c l) (remove_entry c l').
Proof. intros H. induction H as [|[k e] [k' e'] l l' [N Y] H IH]; cbn [remove_entry]; [constructor|]. cbn [fst snd] in *. subst k'. destruct (text_eqb k c); auto. Qed.
Lemma sib_update p : forall name x x' d d', sib name d d' -> like_opt (sib (last p name)) x x' -> sib name (update p x d) (update p x' d').
Proof.
  induction p as [|c p IH]; intros name x x' d d' S X.
  - cbn [update]. cbn [last] in X. destruct x, x'; cbn in X; try contradiction; auto.
  - cbn [update]. destruct S as [| | |name l l' F]; try (constructor; auto; fail). destruct p as [|a p].
    + cbn [last] in X. destruct x, x'; cbn in X; try contradiction; constructor; [now apply sib_set|now apply sib_remove].
    + pose proof (sib_assoc c _ _ F) as A. destruct (assoc c l) as [y|], (assoc c l') as [y'|]; cbn in A; try contradiction; constructor; auto. apply sib_set; auto. apply IH; auto.
      change (last (c :: a :: p) name) with (last (a :: p) name) in X. now rewrite (last_other a p c name).
Qed.
Lemma sib_dir_at p name d d' : sib name d d' -> is_edir (lookup p d') = is_edir (lookup p d).
Proof. intros S. pose proof (sib_lookup p name d d' S) as L. destruct (lookup p d), (lookup p d'); cbn in L; try contradiction; auto. now destruct L. Qed.
Inductive sib_op : op -> op -> Prop :=
| so_same o : sib_op o o
| so_write p b b' : data_name (last p []) -> sib_op (OWrite p b) (OWrite p b').
Lemma sib_run o o' d d' : sib_op o o' -> sib [] d d' -> like_opt (sib []) (run_op o d) (run_op o' d').
Proof.
  intros O S. assert (R : forall p, like_opt (sib (last p [])) None None) by (intros; exact I).
  assert (W : forall p b b', sib (last p []) (EFile b) (EFile b') -> like_opt (sib []) (run_op (OWrite p b) d) (run_op (OWrite p b') d')).
  { intros p b b' B. cbn [run_op]. unfold write_file. rewrite (sib_dir_at (parent p) _ _ _ S). pose proof (sib_lookup p [] d d' S) as L.
    destruct (lookup p d) as [x|], (lookup p d') as [x'|]; cbn in L; try contradiction.
    - destruct L; cbn; try exact I; now apply sib_update.
    - destruct (is_edir _); cbn; [now apply sib_update|exact I]. }
  assert (M : forall p, match mkdir p d, mkdir p d' with IoOk a, IoOk a' => sib [] a a' | IoExists, IoExists => True | IoErr, IoErr => True | _, _ => False end).
  { intros p. unfold mkdir. rewrite (sib_dir_at (parent p) _ _ _ S). pose proof (sib_lookup p [] d d' S) as L.
    destruct (lookup p d) as [x|], (lookup p d') as [x'|]; cbn in L; try contradiction; auto. destruct (is_edir _); auto. apply sib_update; auto. cbn. apply sib_refl. }
  destruct O as [o|p b b' N]; [|apply W; now constructor]. destruct o as [p|p|p|p b]; [| | |apply W; constructor]; cbn [run_op].
  - rewrite (sib_dir_at p _ _ _ S). destruct (is_edir (lookup p d)) eqn:D; [|exact S]. unfold rmtree. assert (D' := sib_dir_at p _ _ _ S). rewrite D in D'.
    destruct p as [|c p]; [exact I|].
    destruct (lookup (c :: p) d) as [[| |]|]; try discriminate. destruct (lookup (c :: p) d') as [[| |]|]; try discriminate. cbn [like_opt]. now apply sib_update.
  - specialize (M p). destruct (mkdir p d), (mkdir p d'); try contradiction; auto; exact I.
  - specialize (M p). destruct (mkdir p d), (mkdir p d'); try contradiction; auto; exact I.
Qed.
Lemma sib_path o o' : sib_op o o' -> op_path o' = op_path o.
Proof. now intros []. Qed.
Lemma sib_ops ops ops' : Forall2 sib_op ops ops' -> forall f d d', sib [] d d' ->
  sib [] (fst (run_ops f ops d)) (fst (run_ops f ops' d')) /\ snd (run_ops f ops' d') = snd (run_ops f ops d).
Proof.
  intros H. induction H as [|o o' ops ops' O H IH]; intros f d d' S; cbn [run_ops]; [now split|]. pose proof (sib_run o o' d d' O S) as R.
  assert (J : forall g, sib [] (fst (match run_op o d with None => (d, false) | Some d1 => run_ops g ops d1 end)) (fst (match run_op o' d' with None => (d', false) | Some d1 => run_ops g ops' d1 end)) /\
    snd (match run_op o' d' with None => (d', false) | Some d1 => run_ops g ops' d1 end) = snd (match run_op o d with None => (d, false) | Some d1 => run_ops g ops d1 end)).
  { intros g. destruct (run_op o d), (run_op o' d'); cbn in R; try contradiction; [now apply IH|now split]. }
  destruct f as [[[|k] junk]|]; [|apply J|apply J]. rewrite (sib_path _ _ O). cbn [fst snd]. split; [|reflexivity]. apply sib_update; auto. destruct junk; cbn; auto. apply sib_refl.
Qed.
Lemma split_tail x : ~ In c_slash x -> forall a, exists s, match split_char c_slash (a ++ x) with (h, r) => last (h :: r) [] = s ++ x end.
Proof.
  intros N a. induction a as [|c a (s & IH)].
  - exists []. cbn [app]. induction x as [|c x IH]; [reflexivity|]. cbn [split_char]. assert (Nx : ~ In c_slash x) by (intros I; apply N; now right). specialize (IH Nx).
    destruct (split_char c_slash x) as [h r] eqn:E. destruct (N.eqb_spec c c_slash) as [->|]; [exfalso; apply N; now left|]. destruct r as [|k r].
    + cbn [last] in *. now rewrite IH.
    + exfalso. assert (F : forall y h r, ~ In c_slash y -> split_char c_slash y = (h, r) -> r = []).
      { clear. induction y as [|c y IH]; intros h r N E; [now injection E as <- <-|]. cbn [split_char] in E. destruct (split_char c_slash y) as [h' r'] eqn:E'. destruct (N.eqb_spec c c_slash) as [->|]; [exfalso; apply N; now left|].
        injection E as <- <-. apply (IH h' r'); auto. intros I. apply N. now right. }
      discriminate (F x h (k :: r) Nx E).
  - cbn [app split_char]. destruct (split_char c_slash (a ++ x)) as [h r]. destruct (N.eqb c c_slash).
    + exists s. rewrite <- IH. now destruct r.
    + destruct r as [|k r]; [exists (c :: s); cbn [last] in *; now rewrite IH|exists s; now rewrite <- IH].
Qed.
Lemma join_data p name : data_name name -> exists dir s, join_path p name = dir ++ [s ++ lit ".json"].
Proof.
  intros (s0 & ->). assert (N : ~ In c_slash (lit ".json")) by (vm_compute; intuition discriminate). destruct (split_tail _ N s0) as (s & T). unfold join_path. destruct (split_char c_slash (s0 ++ lit ".json")) as [h r].
  destruct (exists_last (l := h :: r)) as (l & z & E); [discriminate|]. rewrite E in T |- *. rewrite last_last in T. subst z. rewrite fold_left_app. cbn [fold_left]. unfold step_component at 1.
  assert (L : forall k : text, length k < 5 -> text_eqb (s ++ lit ".json") k = false).
  { intros k K. destruct (text_eqb (s ++ lit ".json") k) eqn:Q; auto. apply text_eqb_eq in Q. rewrite <- Q, app_length in K. change (length (lit ".json")) with 5 in K. lia. }
  rewrite !L by (cbn; lia). cbn [orb]. do 2 eexists. reflexivity.
Qed.
Lemma ext_data name : has_ext name (lit "json") -> data_name name.
Proof. intros (stem & -> & _). now exists stem. Qed.
Lemma data_html s : strip_suffix (lit ".html") (s ++ lit ".json") = None.
Proof. apply strip_suffix_none. intros r E. apply (f_equal (@rev _)) in E. rewrite !rev_app_distr in E. discriminate E. Qed.
Lemma ops_refl l : Forall2 sib_op l l.
Proof. induction l; constructor; auto. constructor. Qed.
Lemma recur_says cf o : forall p o', output_says o o' -> Forall2 sib_op (save_recur cf p o) (save_recur cf p o').
Proof.
  induction o as [name b pc meta src|name ch src IH] using node_ind2; intros p o' L; inversion L as [|? ? b' ? ? ? X|? ? ch' ? H]; subst; [apply ops_refl| |]; cbn [save_recur].
  - apply ext_data in X as D. destruct D as (s & ->). rewrite data_html. destruct (_ && _); [|constructor]. destruct (cf_strip cf && _ && _);
    (constructor; [|constructor]; constructor; destruct (join_data p (s ++ lit ".json")) as (dir & s1 & ->); [now exists s|]; rewrite last_last; now exists s1).
  - constructor; [constructor|]. clear L. induction H as [|x x' ch ch' X H IHl]; cbn [flat_map]; [constructor|]. inversion IH; subst. apply Forall2_app; auto.
Qed.
Lemma recur_nodata cf o : cf_data cf = false -> forall p o', output_says o o' -> save_recur cf p o' = save_recur cf p o.
Proof.
  intros Z. induction o as [name b pc meta src|name ch src IH] using node_ind2; intros p o' L; inversion L as [|? ? b' ? ? ? X|? ? ch' ? H]; subst; [reflexivity| |]; cbn [save_recur].
  - apply ext_data in X as (s & ->). assert (E : ends_with (lit ".json") (s ++ lit ".json") = true) by (apply ends_with_spec; now exists s). rewrite Z, E. cbn [orb negb]. rewrite andb_false_r. reflexivity.
  - f_equal. clear L. induction H as [|x x' ch ch' X H IHl]; cbn [flat_map]; auto. inversion IH; subst. now rewrite (H2 _ _ X), IHl.
Qed.
Lemma meta_says o : forall top o', output_says o o' -> metadata_recur top o' = metadata_recur top o.
Proof.
  induction o as [name b pc meta src|name ch src IH] using node_ind2; intros top o' L; inversion L as [|? ? b' ? ? ? B|? ? ch' ? H]; subst; cbn [metadata_recur]; [reflexivity|reflexivity|].
  assert (Q : map_res (metadata_recur false) ch' = map_res (metadata_recur false) ch).
  { clear L. induction H as [|x x' ch ch' X H IHl]; cbn [map_res]; auto. inversion IH; subst. fold (map_res (E := error) (metadata_recur false)). rewrite (H2 _ _ X). now rewrite IHl. }
  now rewrite Q.
Qed.
Lemma sib_what d d' : sib [] d d' -> same_but_data d d'.
Proof.
  intros S q. unfold what. pose proof (sib_lookup q [] d d' S) as L. destruct (lookup q d) as [x|], (lookup q d') as [x'|]; cbn in L; try contradiction; [|now left].
  remember (last q []) as nm eqn:Q. destruct L as [name b|name b b' (s & N)|name|name l l' F]; try (now left). right.
  destruct (exists_last (l := q)) as (dir & k & ->); [intros ->; rewrite Q in N; apply (f_equal (@length _)) in N; rewrite app_length in N; cbn in N; lia|].
  rewrite last_last in Q. subst k. rewrite N. exists dir, s, b, b'. auto.
Qed.
Lemma kept_settings h osenv mode d st : st_config (fst (build h osenv mode d st)) = st_config st.
Proof. unfold build. destruct (node_new _ _ _ _ _ _); auto. destruct (preprocess _ _); auto. destruct (build_tree _ _ _ _) as [[? ?]| | |]; auto. Qed.
Lemma says_save h osenv mode p name e e' st : sources_say h name e e' ->
  let b := fst (build h osenv mode (SourceDir p name (Some e)) st) in let b' := fst (build h osenv mode (SourceDir p name (Some e')) st) in
  forall f q d, snd (save f b' q d) = snd (save f b q d) /\ same_but_data (fst (save f b q d)) (fst (save f b' q d)) /\
    (cf_data (st_config st) = false -> save f b' q d = save f b q d) /\ forall ser, save_metadata ser f b' q d = save_metadata ser f b q d.
Proof.
  intros S. cbv zeta. intros f q d. unfold save, save_metadata, metadata_value. rewrite !kept_settings. destruct (says_build h osenv mode p name e e' st S) as [_ Q].
  destruct (st_output (fst (build _ _ _ (SourceDir p name (Some e)) st))) as [o|], (st_output (fst (build _ _ _ (SourceDir p name (Some e')) st))) as [o'|]; cbn in Q; try contradiction; [|split; [reflexivity|split; [now left|now split]]].
  rewrite (meta_says _ true _ Q).
  destruct Q as [nm b pc mt src|nm b b' pc mt src X|nm ch ch' src H]; cbn [save_ops]; [split; [reflexivity|split; [now left|now split]]|split; [reflexivity|split; [now left|now split]]|].
  assert (F : Forall2 sib_op (ORmTreeIfDir q :: OMkDir q :: flat_map (save_recur (st_config st) q) ch) (ORmTreeIfDir q :: OMkDir q :: flat_map (save_recur (st_config st) q) ch')).
  { constructor; [constructor|]. constructor; [constructor|]. induction H as [|x x' ch ch' X H IHl]; cbn [flat_map]; [constructor|]. apply Forall2_app; auto. now apply recur_says. }
  destruct (sib_ops _ _ F f d d (sib_refl d [])) as [G1 G2]. split; [|split; [|split]].
  - destruct (run_ops f _ d) as [d1 ok1], (run_ops f (_ :: _ :: flat_map _ ch') d) as [d2 ok2]. cbn [fst snd] in *. now subst.
  - apply sib_what. destruct (run_ops f _ d) as [d1 ok1], (run_ops f (_ :: _ :: flat_map _ ch') d) as [d2 ok2]. exact G1.
  - intros Z. replace (flat_map (save_recur (st_config st) q) ch') with (flat_map (save_recur (st_config st) q) ch); [reflexivity|].
    clear F G1 G2. induction H as [|x x' ch ch' X H IHl]; cbn [flat_map]; auto. now rewrite (recur_nodata _ _ Z _ _ X), IHl.
  - reflexivity.
Qed.
Lemma says_site h osenv mode p name e e' st out : sources_say h name e e' ->
  st_output (fst (build h osenv mode (SourceDir p name (Some e)) st)) = Some out ->
  exists out', st_output (fst (build h osenv mode (SourceDir p name (Some e')) st)) = Some out' /\ output_says out out'.
Proof.
  intros S O. destruct (says_build h osenv mode p name e e' st S) as [_ Q]. rewrite O in Q. destruct (st_output (fst (build _ _ _ (SourceDir p name (Some e')) st))) as [out'|]; [|contradiction]. now exists out'.
Qed.
