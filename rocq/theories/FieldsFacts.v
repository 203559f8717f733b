(** FieldsFacts.v -- builds of sources that differ in no field that is asked for (C106). *)

From Coq Require Import String List NArith ZArith Bool Lia Permutation.
From Verif Require Import Text TextFacts Utf8 Json Base Syntax Parse Tree Interp Build Disk.
From Verif Require Import SpecUtf8 SpecScope SpecTree SpecSite SpecBlame SpecDisk SpecAlike SpecReads SpecSays SpecFields.
From Verif Require Import Utf8Facts TreeFacts ScopeFacts BuildTotal MarkdownFacts ReadsFacts GrammarFacts BlameFacts AlikeFacts DiskFacts SaveFacts LineRun OrderFacts SaysFacts.
Import ListNotations.

Section On.
Variable P0 : text -> Prop.
Notation same_value := (value_on P0).
Notation same_fields := (fields_on P0).
Notation scope_fields := (scope_on P0).
Notation frame_fields := (frame_on P0).
Notation orderless := (heedless P0).
Notation output_fields := output_on.
Notation same_record := record_kind.
Notation sources_fields := (sources_on P0).

(** ** Values *)
Lemma same_cases v v' : same_value v v' -> v' = v \/ (exists l l', v = VArr l /\ v' = VArr l' /\ Forall2 same_value l l') \/
  (exists l l', v = VObj l /\ v' = VObj l' /\ forall k, P0 k -> like_opt same_value (assoc k l) (assoc k l')).
Proof.
  intros [x|l l' F|l l' F G]; [now left|right; left; now exists l, l'|right; right; exists l, l'; split; [reflexivity|]; split; [reflexivity|]].
  intros k Pk. destruct (assoc k l) as [x|] eqn:E.
  - apply assoc_iff in E. destruct (F k x Pk E) as (y & Y & S). apply assoc_iff in Y. now rewrite Y.
  - destruct (assoc k l') as [y|] eqn:E'; [|exact I]. apply assoc_iff in E'. destruct (G k y Pk E') as (x & X & S). apply assoc_iff in X. congruence.
Qed.
Lemma object_same l l' : (forall k, P0 k -> like_opt same_value (assoc k l) (assoc k l')) -> same_value (VObj l) (VObj l').
Proof.
  intros H. apply vo_object; intros k v Pk B; apply assoc_iff in B; specialize (H k Pk); rewrite B in H.
  - destruct (assoc k l') as [v'|] eqn:E; [|contradiction]. exists v'. split; [now apply assoc_iff|exact H].
  - destruct (assoc k l) as [v'|] eqn:E; [|contradiction]. exists v'. split; [now apply assoc_iff|exact H].
Qed.
Lemma opt_refl o : like_opt same_value o o.
Proof. destruct o; cbn; auto. constructor. Qed.
Lemma nth_same l l' : Forall2 same_value l l' -> forall n, like_opt same_value (nth_N n l) (nth_N n l').
Proof. induction 1 as [|x x' l l' X H IH]; intros n; cbn [nth_N]; [exact I|]. destruct (n =? 0)%N; [exact X|apply IH]. Qed.
Lemma step_same k v v' : P0 k -> same_value v v' -> like_opt same_value (get_step k v) (get_step k v').
Proof.
  intros Pk S. destruct (same_cases _ _ S) as [->|[(l & l' & -> & -> & F)|(l & l' & -> & -> & F)]]; [apply opt_refl| |]; unfold get_step; cbn [get_key].
  - destruct (parse_usize k); [|exact I]. cbn [get_idx]. now apply nth_same.
  - specialize (F k Pk). destruct (assoc k l), (assoc k l'); cbn in F; try contradiction; [exact F|]. destruct (parse_usize k); exact I.
Qed.
Lemma value_same idx : Forall P0 idx -> forall v v', same_value v v' -> same_value (get_value idx v) (get_value idx v').
Proof.
  induction 1 as [|k idx Pk _ IH]; intros v v' S; cbn [get_value]; auto. pose proof (step_same k v v' Pk S) as Q. destruct (get_step k v), (get_step k v'); cbn in Q; try contradiction; [now apply IH|constructor].
Qed.
Lemma str_same v v' : same_value v v' -> as_str v' = as_str v.
Proof. intros S. destruct (same_cases _ _ S) as [->|[(l & l' & -> & -> & F)|(l & l' & -> & -> & F)]]; reflexivity. Qed.
Lemma list_refl l : Forall2 same_value l l.
Proof. induction l; constructor; auto. constructor. Qed.
Lemma array_same v v' : same_value v v' -> like_opt (Forall2 same_value) (as_array v) (as_array v').
Proof. intros S. destruct (same_cases _ _ S) as [->|[(l & l' & -> & -> & F)|(l & l' & -> & -> & F)]]; cbn; auto. destruct v; cbn; auto. apply list_refl. Qed.
Lemma assoc_same k l l' : Forall2 (fun b b' : text * value => fst b' = fst b /\ same_value (snd b) (snd b')) l l' -> like_opt same_value (assoc k l) (assoc k l').
Proof. induction 1 as [|[a v] [a' v'] l l' [X Y] H IH]; cbn in *; auto. subst a'. now destruct (text_eqb a k). Qed.
Lemma frames_same k st st' : Forall2 frame_fields st st' -> like_opt same_value (lookup_frames k st) (lookup_frames k st').
Proof.
  induction 1 as [|f f' st st' (_ & _ & F) H IH]; cbn [lookup_frames]; [exact I|]. apply (assoc_same k) in F.
  destruct (assoc k (fr_vars f)), (assoc k (fr_vars f')); cbn in *; try contradiction; auto.
Qed.
Definition open_to (v : text) : Prop := Forall P0 (snd (split_char c_dot v)).
Lemma read_same v st st' : open_to v -> Forall2 frame_fields st st' -> like_opt same_value (get_variable v st) (get_variable v st').
Proof.
  intros O H. unfold get_variable. unfold open_to in O. destruct (split_char c_dot v) as [h idx]. cbn [snd] in O. pose proof (frames_same h _ _ H) as L.
  destruct (lookup_frames h st) as [x|], (lookup_frames h st') as [x'|]; cbn in L; try contradiction; [|exact I]. now apply value_same.
Qed.
Ltac by_kind S := destruct (same_cases _ _ S) as [->|[(?l & ?l' & -> & -> & _)|(?l & ?l' & -> & -> & _)]]; reflexivity.
Lemma string_same v s s' : open_to v -> scope_fields s s' -> string_var v s' = string_var v s.
Proof.
  intros O (_ & _ & K). unfold string_var. pose proof (read_same v _ _ O K) as L. destruct (get_variable v (sc_stack s)) as [x|], (get_variable v (sc_stack s')) as [x'|]; cbn in L; try contradiction; auto.
  now rewrite (str_same _ _ L).
Qed.
Lemma printed_same v st st' : open_to v -> Forall2 frame_fields st st' -> var_string v st' = var_string v st.
Proof. intros O K. unfold var_string. pose proof (read_same v _ _ O K) as L. destruct (get_variable v st) as [x|], (get_variable v st') as [x'|]; cbn in L; try contradiction; auto. by_kind L. Qed.
Lemma input_same i st st' : (forall v, i = IVar v -> open_to v) -> Forall2 frame_fields st st' -> eval_input i st' = eval_input i st.
Proof. intros O K. destruct i as [v|t|z]; auto. cbn [eval_input]. pose proof (read_same v _ _ (O v eq_refl) K) as L. destruct (get_variable v st) as [x|], (get_variable v st') as [x'|]; cbn in L; try contradiction; auto. by_kind L. Qed.

(** ** What a loop goes over *)
Lemma insert_same key x x' l l' : (forall v v', same_value v v' -> key v' = key v) -> same_value x x' -> Forall2 same_value l l' -> Forall2 same_value (insert_by key x l) (insert_by key x' l').
Proof.
  intros K X. induction 1 as [|y y' l l' Y H IH]; cbn [insert_by]; [constructor; auto|]. rewrite (K _ _ X), (K _ _ Y). destruct (text_ltb _ _); constructor; auto.
Qed.
Lemma sort_same key l l' : (forall v v', same_value v v' -> key v' = key v) -> Forall2 same_value l l' -> Forall2 same_value (sort_by key l) (sort_by key l').
Proof.
  intros K H. unfold sort_by. assert (A : Forall2 same_value [] []) by constructor. revert A. generalize (@nil value) at 1 3. generalize (@nil value). induction H as [|x x' l l' X H IH]; intros a' a A; cbn [fold_left]; auto.
  apply IH. now apply insert_same.
Qed.
Lemma rev_same l l' : Forall2 same_value l l' -> Forall2 same_value (rev l) (rev l').
Proof. induction 1; cbn [rev]; auto. apply Forall2_app; auto. Qed.
Lemma skip_same l l' : Forall2 same_value l l' -> forall n, Forall2 same_value (skip_n n l) (skip_n n l').
Proof. induction 1 as [|x x' l l' X H IH]; intros n; cbn [skip_n]; auto. destruct (n =? 0)%N; auto. Qed.
Lemma take_same l l' : Forall2 same_value l l' -> forall n, Forall2 same_value (take_n n l) (take_n n l').
Proof. induction 1 as [|x x' l l' X H IH]; intros n; cbn [take_n]; auto. destruct (n =? 0)%N; auto. Qed.
Lemma select_same f l l' : (forall k, ff_sort f = Some k -> open_to k) -> Forall2 same_value l l' -> Forall2 same_value (select f l) (select f l').
Proof.
  intros O H. unfold select. assert (H1 : Forall2 same_value (match ff_sort f with Some k => sort_by (sort_key k) l | None => l end) (match ff_sort f with Some k => sort_by (sort_key k) l' | None => l' end)).
  { destruct (ff_sort f) as [k|]; auto. apply sort_same; auto. intros v v' S. unfold sort_key. now rewrite (str_same _ _ (value_same _ (O k eq_refl) _ _ S)). }
  revert H1. generalize (match ff_sort f with Some k => sort_by (sort_key k) l | None => l end) (match ff_sort f with Some k => sort_by (sort_key k) l' | None => l' end). clear. intros l l' H.
  assert (H1 : Forall2 same_value (if ff_desc f then rev l else l) (if ff_desc f then rev l' else l')) by (destruct (ff_desc f); [now apply rev_same|exact H]).
  revert H1. generalize (if ff_desc f then rev l else l) (if ff_desc f then rev l' else l'). clear. intros l l' H.
  assert (H1 : Forall2 same_value (match ff_skip f with Some n => skip_n n l | None => l end) (match ff_skip f with Some n => skip_n n l' | None => l' end)) by (destruct (ff_skip f); [now apply skip_same|exact H]).
  destruct (ff_limit f); [now apply take_same|exact H1].
Qed.

(** ** Trees *)
Definition fit (t : token) : Prop := (forall v, reads_var t v -> open_to v) /\ (forall f k, t = TFun (FFor f) -> ff_sort f = Some k -> open_to k).
Definition mild (t : ltoken) : Prop := (forall p, t_inner t = TFun (FPlugin p) -> orderless p) /\ fit (t_inner t).
Inductive kparsed : parsed -> parsed -> Prop :=
| kp_html t : Forall mild t -> kparsed (PHtml t) (PHtml t)
| kp_md fm fm' t s h : same_fields fm fm' -> Forall mild t -> kparsed (PMarkdown (Markdown fm t s h)) (PMarkdown (Markdown fm' t s h))
| kp_json v v' : same_value v v' -> kparsed (PJson v) (PJson v')
| kp_custom c : kparsed (PCustom c) (PCustom c)
| kp_none : kparsed PNone PNone
| kp_ignored : kparsed PIgnored PIgnored.
Inductive knode : node -> node -> Prop :=
| kd_file name b b' pc pc' meta src : b' = b \/ has_ext name (lit "json") /\ (exists v, pc = PJson v) \/ is_template_name name = false /\ (exists m, pc = PMarkdown m) ->
    kparsed pc pc' -> knode (NFile name b pc meta src) (NFile name b' pc' meta src)
| kd_dir name ch ch' src : Forall2 knode ch ch' -> knode (NDir name ch src) (NDir name ch' src).
Lemma knode_name n n' : knode n n' -> n_name n' = n_name n.
Proof. now intros []. Qed.
Lemma knode_child c ch ch' : Forall2 knode ch ch' -> like_opt knode (find_child c ch) (find_child c ch').
Proof. intros H. unfold find_child. induction H as [|n n' ch ch' N H IH]; cbn [find]; [exact I|]. rewrite (knode_name _ _ N). now destruct (text_eqb _ _). Qed.
Lemma knode_walk p : forall n n', knode n n' -> like_opt knode (walk n p) (walk n' p).
Proof.
  induction p as [|c p IH]; intros n n' N; cbn [walk]; auto. destruct N as [|name ch ch' src H]; [exact I|]. cbn [n_children].
  pose proof (knode_child c _ _ H) as L. destruct (find_child c ch), (find_child c ch'); cbn in L; try contradiction; auto.
Qed.
Lemma knode_at n n' p : knode n n' -> like_opt knode (get_at_path n p) (get_at_path n' p).
Proof. intros N. unfold get_at_path. destruct (components p); [now apply knode_walk|exact I]. Qed.
Lemma assoc_set k k' x l : assoc k (set_key k' x l) = if text_eqb k' k then Some x else assoc k l.
Proof.
  induction l as [|[j v] l IH]; cbn [set_key assoc]; [reflexivity|]. destruct (text_eqb j k') eqn:E; cbn [assoc].
  - apply text_eqb_eq in E. subst j. now destruct (text_eqb k' k).
  - rewrite IH. destruct (text_eqb j k) eqn:F; auto. apply text_eqb_eq in F. subst j. destruct (text_eqb k' k) eqn:G; auto. apply text_eqb_eq in G. subst k'. now rewrite text_eqb_refl in E.
Qed.
Lemma assoc_front k fm : assoc k (front_value fm) = match assoc k fm with Some y => Some (VStr y) | None => None end.
Proof. unfold front_value. induction fm as [|[j y] l IH]; cbn; auto. now destruct (text_eqb j k). Qed.
Lemma fields_assoc fm fm' : same_fields fm fm' -> forall k, P0 k -> assoc k fm' = assoc k fm.
Proof.
  intros F k Pk. destruct (assoc k fm) as [v|] eqn:E; [apply assoc_iff; apply (F k v Pk); now apply assoc_iff|]. destruct (assoc k fm') as [v|] eqn:E'; auto. apply assoc_iff in E'. apply (F k v Pk) in E'. apply assoc_iff in E'. congruence.
Qed.
Lemma front_same fm fm' : same_fields fm fm' -> same_value (VObj (front_value fm)) (VObj (front_value fm')).
Proof. intros F. apply object_same. intros k Pk. rewrite !assoc_front, (fields_assoc _ _ F k Pk). apply opt_refl. Qed.
Lemma post_same {E} fm fm' t s h : same_fields fm fm' -> both (@eq E) same_value (md_to_value (Markdown fm t s h)) (md_to_value (Markdown fm' t s h)).
Proof.
  intros F. unfold md_to_value. cbn [md_html md_string md_front]. destruct h as [h|]; [|reflexivity]. apply object_same. intros k Pk. rewrite !assoc_set, !assoc_front, (fields_assoc _ _ F k Pk). apply opt_refl.
Qed.
Lemma posts_same {E} ch ch' : Forall2 knode ch ch' -> both (@eq E) (Forall2 same_value) (md_values ch) (md_values ch').
Proof.
  induction 1 as [|n n' ch ch' N H IH]; cbn [md_values]; [constructor|]. destruct N as [name b b' pc pc' meta src _ P|]; cbn [n_parsed]; auto. destruct P as [|fm fm' t s h F G| | | |]; auto.
  apply (both_bind _ same_value); [now apply post_same|]. intros v v' V. apply (both_bind _ (Forall2 same_value)); [exact IH|]. intros l l' L. cbn. now constructor.
Qed.

(** ** Running *)
Section Running.
  Variables w w' : world.
  Hypothesis Hh : w_host w' = w_host w.
  Hypothesis Hi : knode (w_input w) (w_input w').
  Hypothesis Ht : w_toks w' = w_toks w.
  Hypothesis Hg : Forall mild (w_toks w).
  Notation sim := (both (@eq tbe) scope_fields).
  Notation simk := (both (@eq process_error) scope_fields).
  Lemma next_same s s' : scope_fields s s' -> match next_token w s, next_token w' s' with Some (t, s1), Some (t', s1') => t' = t /\ mild t /\ scope_fields s1 s1' | None, None => True | _, _ => False end.
  Proof.
    intros (I & S & F). unfold next_token. rewrite I, Ht. destruct (nth_error (w_toks w) (sc_idx s)) as [t|] eqn:E; [|exact Logic.I]. split; auto. split; [|repeat split; auto].
    rewrite Forall_forall in Hg. apply Hg. now apply nth_error_In in E.
  Qed.
  Lemma height_same s s' : scope_fields s s' -> length (sc_stack s') = length (sc_stack s).
  Proof. intros (_ & _ & F). induction F; cbn; auto. Qed.
  Lemma current_same s s' k k' : scope_fields s s' -> (forall l, sim (k l) (k' l)) -> sim (with_current w s k) (with_current w' s' k').
  Proof. intros (I & _) K. unfold with_current, current. rewrite I, Ht. destruct (sc_idx s) as [|i]; [reflexivity|]. destruct (nth_error (w_toks w) i); [apply K|reflexivity]. Qed.
  Lemma push_same f f' s s' : frame_fields f f' -> scope_fields s s' -> scope_fields (push_frame f s) (push_frame f' s').
  Proof. intros F (I & S & K). repeat split; auto. cbn. now constructor. Qed.
  Lemma frame_same f : frame_fields f f.
  Proof. repeat split; auto. induction (fr_vars f); constructor; auto. split; auto. constructor. Qed.
  Lemma out_same b f f' : frame_fields f f' -> frame_fields (add_out b f) (add_out b f').
  Proof. intros (N & O & V). repeat split; cbn; auto. now rewrite O. Qed.
  Lemma var_same k v v' f f' : same_value v v' -> frame_fields f f' -> frame_fields (add_var k v f) (add_var k v' f').
  Proof. intros S (N & O & V). repeat split; cbn; auto. apply Forall2_app; auto. Qed.
  Lemma output_same b s s' : scope_fields s s' -> simk (output b s) (output b s').
  Proof. intros (I & S & K). unfold output. destruct K; [reflexivity|]. repeat split; auto. cbn. constructor; auto. now apply out_same. Qed.
  Lemma emit_same b s s' : scope_fields s s' -> sim (emit b s) (emit b s').
  Proof. intros (I & S & K). unfold emit. destruct K; [reflexivity|]. repeat split; auto. cbn. constructor; auto. now apply out_same. Qed.
  Lemma source_same f st st' : (ff_type f = SrcVar -> open_to (ff_src f)) -> Forall2 frame_fields st st' -> both (@eq process_error) (Forall2 same_value) (for_values w f st) (for_values w' f st').
  Proof.
    intros O K. unfold for_values. destruct (ff_type f).
    - pose proof (knode_at _ _ (ff_src f) Hi) as L. destruct (get_at_path (w_input w) _) as [n|], (get_at_path (w_input w') _) as [n'|]; cbn in L; try contradiction; [|reflexivity].
      destruct L as [|name ch ch' src H]; [reflexivity|]. now apply posts_same.
    - pose proof (knode_at _ _ (ff_src f) Hi) as L. destruct (get_at_path (w_input w) _) as [n|], (get_at_path (w_input w') _) as [n'|]; cbn in L; try contradiction; [|reflexivity].
      destruct L as [name b b' pc pc' meta src _ P|]; [|reflexivity]. destruct P as [| |v v' V| | |]; try reflexivity. apply array_same in V. destruct (as_array v), (as_array v'); cbn in *; try contradiction; auto.
    - pose proof (read_same (ff_src f) _ _ (O eq_refl) K) as L. destruct (get_variable _ st) as [v|], (get_variable _ st') as [v'|]; cbn in L; try contradiction; [|reflexivity].
      apply array_same in L. destruct (as_array v), (as_array v'); cbn in *; try contradiction; auto.
  Qed.
  Lemma import_same v file s s' : scope_fields s s' -> simk (exec_import w v file s) (exec_import w' v file s').
  Proof.
    intros (I & S & K). unfold exec_import. pose proof (knode_at _ _ file Hi) as L.
    destruct (get_at_path (w_input w) _) as [n|], (get_at_path (w_input w') _) as [n'|]; cbn in L; try contradiction; [|reflexivity].
    destruct L as [name b b' pc pc' meta src _ P|]; [|reflexivity]. destruct P as [| |x x' X| | |]; try reflexivity. destruct K as [|f f' st st' F K]; [reflexivity|].
    pose proof F as (N & O & V). pose proof (assoc_same v _ _ V) as L. destruct (assoc v (fr_vars f)), (assoc v (fr_vars f')); cbn in L; try contradiction; [reflexivity|].
    repeat split; auto. cbn. constructor; auto. now apply var_same.
  Qed.
  Lemma end_same label custom s s' : scope_fields s s' -> simk (exec_end label custom s) (exec_end label custom s').
  Proof.
    intros (I & S & K). unfold exec_end. destruct K as [|f f' st st' F K]; [reflexivity|]. destruct F as (N & O & V). rewrite N, O.
    assert (L : scope_fields (set_stack st s) (set_stack st' s')) by (repeat split; auto). destruct custom.
    - destruct (text_eqb _ _); [|reflexivity]. apply (both_bind _ scope_fields); [now apply output_same|]. intros x x' (I' & S' & K'). repeat split; auto. cbn. now rewrite S'.
    - destruct (starts_with _ _); [|reflexivity]. now apply output_same.
  Qed.
  Lemma else_same s s' : scope_fields s s' -> simk (exec_else s) (exec_else s').
  Proof.
    intros L. pose proof L as (I & S & K). unfold exec_else. destruct K as [|f f' st st' F K]; [reflexivity|]. destruct F as (N & O & V). rewrite N. destruct (starts_with _ _); [exact L|reflexivity].
  Qed.
  Lemma insert_section label s s' : scope_fields s s' -> simk (exec_insert label s) (exec_insert label s').
  Proof.
    intros (I & S & K). unfold exec_insert. rewrite S. destruct K as [|f f' st st' F K]; [reflexivity|]. destruct (assoc label _); [|reflexivity].
    repeat split; auto. cbn. constructor; auto. now apply out_same.
  Qed.
  Lemma date_same v fmt s s' : open_to v -> scope_fields s s' -> simk (exec_date (w_host w) v fmt s) (exec_date (w_host w) v fmt s').
  Proof.
    intros O L. unfold exec_date. destruct (h_date _) as [d|]; [|reflexivity]. rewrite (string_same v s s' O L). apply (both_bind _ eq); [apply both_eq|]. intros x x' ->. destruct (d x' fmt); [|reflexivity].
    now apply output_same.
  Qed.
  Lemma located_same s s' r r' : scope_fields s s' -> simk r r' -> sim (with_current w s (fun l => map_err (tb l) r)) (with_current w' s' (fun l => map_err (tb l) r')).
  Proof. intros L H. apply current_same; auto. intros l. apply (both_map eq); auto. intros e e' ->. reflexivity. Qed.
  Definition sameway (ex ex' : ltoken -> scope -> xres scope) : Prop := forall t s s', mild t -> scope_fields s s' -> sim (ex t s) (ex' t s').
  Lemma block_same ex ex' h eof k : sameway ex ex' -> forall s s', scope_fields s s' -> sim (run_block ex w h eof k s) (run_block ex' w' h eof k s').
  Proof.
    intros X. induction k as [|k IH]; intros s s' L; cbn [run_block]; rewrite (height_same _ _ L); destruct (Nat.leb _ _); auto; [exact I|].
    pose proof (next_same _ _ L) as N. destruct (next_token w s) as [[t s1]|], (next_token w' s') as [[t' s1']|]; try contradiction; [|reflexivity].
    destruct N as (-> & G & S). apply (both_bind _ scope_fields); [now apply X|]. intros; now apply IH.
  Qed.
  Lemma cond_same ex ex' h eof k : sameway ex ex' -> forall c s s', scope_fields s s' -> sim (run_cond ex w h eof k c s) (run_cond ex' w' h eof k c s').
  Proof.
    intros X. induction k as [|k IH]; intros c s s' L; cbn [run_cond]; rewrite (height_same _ _ L); destruct (Nat.leb _ _); auto; [exact I|].
    pose proof (next_same _ _ L) as N. destruct (next_token w s) as [[t s1]|], (next_token w' s') as [[t' s1']|]; try contradiction; [|reflexivity].
    destruct N as (-> & G & S). rewrite (height_same _ _ S). destruct (token_fn_name t) as [nm| | |] eqn:F; cbn [bind]; try exact I; try reflexivity.
    destruct (c || _); [|now apply IH]. apply (both_bind _ scope_fields); [now apply X|]. intros; now apply IH.
  Qed.
  Lemma loop_same ex ex' name wp eof vs vs' : sameway ex ex' -> Forall2 same_value vs vs' -> forall s s', scope_fields s s' -> sim (for_loop ex w name wp eof vs s) (for_loop ex' w' name wp eof vs' s').
  Proof.
    intros X. induction 1 as [|v v' vs vs' V H IH]; intros s s' L; cbn [for_loop]; [exact L|]. rewrite Ht.
    assert (L1 : scope_fields (set_idx wp s) (set_idx wp s')) by (destruct L as (I & S & K); repeat split; auto). rewrite (height_same _ _ L1).
    apply (both_bind _ scope_fields); [|intros; now apply IH]. apply block_same; auto. apply push_same; auto. apply var_same; auto. apply frame_same.
  Qed.
  Lemma fn_same ex ex' t f s s' : sameway ex ex' -> mild t -> t_inner t = TFun f -> scope_fields s s' -> sim (exec_fn ex w f s) (exec_fn ex' w' f s').
  Proof.
    intros X G T L. unfold exec_fn. destruct G as [G [Rd So]]. rewrite T in G, Rd, So. rewrite Ht, Hh.
    destruct f as [label custom|v fmt| |label custom|v k|ff|v|v file|label|v|c a b|p].
    - cbn. apply push_same; auto. apply frame_same.
    - apply located_same; auto. apply date_same; auto. apply Rd; constructor.
    - apply located_same; auto. now apply else_same.
    - apply located_same; auto. now apply end_same.
    - apply located_same; auto. rewrite (string_same v s s' ltac:(apply Rd; constructor) L). apply (both_bind _ eq); [apply both_eq|]. intros x x' ->. now apply output_same.
    - apply current_same; auto. intros l. apply (both_bind _ (Forall2 same_value)).
      + apply (both_map eq); [apply source_same; [intros ET; apply Rd; now constructor|apply L]|]. intros e e' ->. reflexivity.
      + intros vs vs' V. rewrite (proj1 L). apply loop_same; auto. apply select_same; auto. intros k E. now apply (So ff k).
    - apply current_same; auto. intros l. rewrite (height_same _ _ L). pose proof (read_same v _ _ ltac:(apply Rd; constructor) (proj2 (proj2 L))) as D.
      replace (match get_variable v (sc_stack s') with Some VNull => false | Some _ => true | None => false end) with (match get_variable v (sc_stack s) with Some VNull => false | Some _ => true | None => false end)
        by (destruct (get_variable v (sc_stack s)), (get_variable v (sc_stack s')); cbn in D; try contradiction; auto; by_kind D).
      apply cond_same; auto. apply push_same; auto. apply frame_same.
    - apply located_same; auto. now apply import_same.
    - apply located_same; auto. now apply insert_section.
    - apply located_same; auto. rewrite (string_same v s s' ltac:(apply Rd; constructor) L). apply (both_bind _ eq); [apply both_eq|]. intros x x' ->. now apply output_same.
    - apply current_same; auto. intros l. rewrite (height_same _ _ L). rewrite (input_same a (sc_stack s) (sc_stack s')), (input_same b (sc_stack s) (sc_stack s')) by (try (intros v ->; apply Rd; constructor); apply L).
      apply (both_bind _ eq); [destruct (eval_input a _); cbn; auto|]. intros x x' ->. apply (both_bind _ eq); [destruct (eval_input b _); cbn; auto|]. intros y y' ->.
      apply cond_same; auto. apply push_same; auto. apply frame_same.
    - apply current_same; auto. intros l. now apply (G p eq_refl).
  Qed.
  Lemma exec_same n : sameway (exec n w) (exec n w').
  Proof.
    induction n as [|n IH]; intros t s s' G L; cbn [exec]; [exact I|]. destruct (t_inner t) as [r|f|v] eqn:F.
    - now apply emit_same.
    - now apply (fn_same _ _ t).
    - destruct G as [_ [Rd _]]. rewrite F in Rd. rewrite (printed_same v (sc_stack s) (sc_stack s')) by (try (apply Rd; constructor); apply L). destruct (var_string v _); cbn; auto. now apply emit_same.
  Qed.
  Lemma run_fields s s' : scope_fields s s' -> sim (Interp.run w s) (Interp.run w' s').
  Proof.
    unfold Interp.run. rewrite Ht. generalize (S (length (w_toks w))) at 1 3. intros k. generalize (S (length (w_toks w))). intros n. revert s s'.
    induction k as [|k IH]; intros s s' L; cbn [run_all]; [exact I|]. pose proof (next_same _ _ L) as N.
    destruct (next_token w s) as [[t s1]|], (next_token w' s') as [[t' s1']|]; try contradiction; [|exact L].
    destruct N as (-> & G & S). apply (both_bind _ scope_fields); [now apply exec_same|]. intros; now apply IH.
  Qed.
End Running.

(** ** Building *)
Definition kpr (pr pr' : processor) : Prop := pr_host pr' = pr_host pr /\ pr_meta pr' = pr_meta pr /\ pr_base pr' = pr_base pr /\ like_opt knode (pr_input pr) (pr_input pr').
Lemma stack_refl st : Forall2 frame_fields st st.
Proof. induction st; constructor; auto. apply frame_same. Qed.
Lemma phase_fields pr pr' toks st st' secs : kpr pr pr' -> Forall mild toks -> Forall2 frame_fields st st' -> both eq scope_fields (phase pr toks st secs) (phase pr' toks st' secs).
Proof.
  intros (H & _ & _ & N) G F. unfold phase. destruct (pr_input pr) as [n|], (pr_input pr') as [n'|]; cbn in N; try contradiction; [|reflexivity]. apply run_fields; auto. repeat split; auto.
Qed.
Lemma phases_fields pr pr' src toks root f f' b : kpr pr pr' -> Forall mild toks -> Forall mild root -> frame_fields f f' -> two_phases pr' src toks root f' b = two_phases pr src toks root f b.
Proof.
  intros P G G2 F. assert (Q : both eq eq (two_phases pr src toks root f b) (two_phases pr' src toks root f' b)).
  { unfold two_phases. apply (both_bind _ scope_fields); [apply phase_fields; auto|]. intros s s' (_ & Q & K). destruct K as [|x x' st st' X K]; [reflexivity|].
    unfold is_base. rewrite (proj1 X). destruct (text_eqb _ _); [|reflexivity]. rewrite Q. apply (both_bind _ scope_fields); [apply phase_fields; auto; constructor; [apply frame_same|exact K]|].
    intros s2 s2' (_ & _ & K2). destruct K2 as [|y y' ? ? Y]; [reflexivity|]. symmetry. apply Y. }
  destruct (two_phases pr src toks root f b), (two_phases pr' src toks root f' b); cbn in Q; try contradiction; now subst.
Qed.
Definition mild_env (e : env) : Prop := (forall t, ev_root e = Some t -> Forall mild t) /\ (forall t, ev_md e = Some t -> Forall mild t).
Lemma json_fields pc pc' : kparsed pc pc' -> same_record (parsed_to_json pc) (parsed_to_json pc').
Proof. intros [t G|fm fm' t s h F G|v v' V|c| |]; cbn [parsed_to_json md_front]; try apply rk_same; apply rk_value. Qed.
Lemma html_fields pr pr' e src toks : kpr pr pr' -> mild_env e -> Forall mild toks -> process_html pr' e src toks = process_html pr e src toks.
Proof.
  intros P [E1 E2] G. unfold process_html. destruct (ev_root e) as [root|]; cbn [ok_or bind]; auto. rewrite (proj1 (proj2 (proj2 P))). destruct (pr_base pr) as [b|]; auto.
  rewrite (phases_fields pr pr' src toks root b b b); auto. apply frame_same.
Qed.
Lemma md_fields pr pr' e src name fm fm' toks s h : kpr pr pr' -> mild_env e -> same_fields fm fm' ->
  process_markdown pr' e src name (Markdown fm' toks s h) = process_markdown pr e src name (Markdown fm toks s h).
Proof.
  intros P [E1 E2] F. unfold process_markdown. destruct (ev_root e) as [root|]; cbn [ok_or bind]; auto. destruct (ev_md e) as [mt|]; cbn [ok_or bind]; auto. rewrite (proj1 (proj2 (proj2 P))).
  destruct (pr_base pr) as [b|]; auto. pose proof (@post_same tbe fm fm' toks s h F) as V. destruct (md_to_value (Markdown fm toks s h)) as [v| | |], (md_to_value (Markdown fm' toks s h)) as [v'| | |]; cbn in V; try contradiction; subst; cbn [bind]; auto.
  rewrite (phases_fields pr pr' src mt root (add_var (lit "self") v b) (add_var (lit "self") v' b) b); auto. apply var_same; auto. apply frame_same.
Qed.
Notation simf := (both (@eq error)).
Lemma out_refl n : output_fields n n.
Proof. induction n as [name b pc meta src|name ch src IH] using node_ind2; constructor; [now left|apply rk_same|]. induction IH; constructor; auto. Qed.
Lemma file_keys pr pr' e name b b' pc pc' src : kpr pr pr' -> mild_env e ->
  b' = b \/ has_ext name (lit "json") /\ (exists v, pc = PJson v) \/ is_template_name name = false /\ (exists m, pc = PMarkdown m) -> kparsed pc pc' ->
  simf output_fields (process_file pr e name b pc src) (process_file pr' e name b' pc' src).
Proof.
  intros P E B C. unfold process_file. rewrite (proj1 (proj2 P)). pose proof (json_fields _ _ C) as J.
  assert (J2 : same_record (if pr_meta pr then parsed_to_json pc else None) (if pr_meta pr then parsed_to_json pc' else None)) by (destruct (pr_meta pr); [exact J|apply rk_same]).
  assert (S : forall o, po_contents o <> None \/ b' = b \/ (has_ext name (lit "json") /\ po_name o = None) ->
    output_fields (NFile (match po_name o with Some n => n | None => name end) (match po_contents o with Some c => c | None => b end) PNone (if pr_meta pr then parsed_to_json pc else None) src)
      (NFile (match po_name o with Some n => n | None => name end) (match po_contents o with Some c => c | None => b' end) PNone (if pr_meta pr then parsed_to_json pc' else None) src)).
  { intros o O. constructor; auto. destruct (po_contents o); [now left|]. destruct O as [O|[O|[O O2]]]; [congruence|now left|]. rewrite O2. now right. }
  destruct (is_template_name name) eqn:T.
  - cbn [bind]. apply (S (POut None None)). destruct B as [B|[[B _]|[B _]]]; [now right; left| |discriminate]. right; right. now split.
  - destruct C as [t G|fm fm' t s h F G|v v' V|c| |].
    + assert (b' = b) as -> by (destruct B as [B|[[_ [v B]]|[_ [v B]]]]; [exact B|discriminate|discriminate]). rewrite (html_fields pr pr'); auto. destruct (process_html _ _ _ _); cbn; auto.
    + rewrite (md_fields pr pr' e src name fm fm'); auto. destruct (process_markdown pr e src name _) as [o| | |] eqn:Q; cbn; auto. apply S. left.
      unfold process_markdown in Q. destruct (ev_root e); try discriminate. destruct (ev_md e); try discriminate. cbn [ok_or bind] in Q. destruct (pr_base pr); try discriminate.
      destruct (md_to_value _); try discriminate. cbn [bind] in Q. destruct (two_phases _ _ _ _ _ _); try discriminate. cbn [bind] in Q. destruct (strip_suffix _ _); try discriminate. injection Q as <-. discriminate.
    + cbn [bind]. apply (S (POut None None)). right. destruct B as [B|[[B _]|[_ [m B]]]]; [now left|right; now split|discriminate].
    + assert (b' = b) as -> by (destruct B as [B|[[_ [v B]]|[_ [v B]]]]; [exact B|discriminate|discriminate]). destruct (np_process c e); cbn; auto.
    + assert (b' = b) as -> by (destruct B as [B|[[_ [v B]]|[_ [v B]]]]; [exact B|discriminate|discriminate]). apply (S (POut None None)). now right; left.
    + assert (b' = b) as -> by (destruct B as [B|[[_ [v B]]|[_ [v B]]]]; [exact B|discriminate|discriminate]). apply (S (POut None None)). now right; left.
Qed.
Lemma update_fields ch ch' : Forall2 knode ch ch' -> forall e, mild_env e -> env_update e ch' = env_update e ch /\ mild_env (env_update e ch).
Proof.
  intros H. unfold env_update. induction H as [|n n' ch ch' N H IH]; intros e E; cbn [fold_left]; [now split|].
  assert (Q : env_child e n' = env_child e n /\ mild_env (env_child e n)).
  { unfold env_child. rewrite (knode_name _ _ N).
    assert (T : match n_parsed n' with PHtml t => Some t | _ => None end = match n_parsed n with PHtml t => Some t | _ => None end /\
      forall t, match n_parsed n with PHtml t => Some t | _ => None end = Some t -> Forall mild t).
    { destruct N as [name b b' pc pc' meta src B C|]; cbn [n_parsed]; [|split; [reflexivity|discriminate]]. destruct C; split; try reflexivity; try discriminate. now intros x [= <-]. }
    destruct T as [T1 T2]. rewrite T1. split; [reflexivity|]. destruct E as [E1 E2]. destruct (text_eqb _ _); [|destruct (text_eqb _ _)]; split; cbn [ev_root ev_md]; auto. }
  destruct Q as [-> Q]. now apply IH.
Qed.
Lemma node_fields n : forall pr pr' e n', kpr pr pr' -> mild_env e -> knode n n' -> simf output_fields (build_node pr e n) (build_node pr' e n').
Proof.
  induction n as [name b pc meta src|name ch src IH] using node_ind2; intros pr pr' e n' P E N; inversion N as [? ? b' ? pc' ? ? B C|? ? ch' ? H]; subst; cbn [build_node].
  - now apply file_keys.
  - destruct (update_fields _ _ H e E) as [-> E2]. apply (both_bind _ (Forall2 output_fields)).
    + apply (both_list _ knode); auto. intros x x' I X. rewrite Forall_forall in IH. now apply IH.
    + intros l l' L. cbn. now constructor.
Qed.
Lemma body_fields pr pr' src fm fm' toks s h : kpr pr pr' -> Forall mild toks -> both eq (fun m m' => exists h', m = Markdown fm toks s h' /\ m' = Markdown fm' toks s h')
  (preprocess_markdown pr src (Markdown fm toks s h)) (preprocess_markdown pr' src (Markdown fm' toks s h)).
Proof.
  intros P G. unfold preprocess_markdown. rewrite (proj1 P), (proj1 (proj2 (proj2 P))). destruct (pr_base pr) as [b|]; [|reflexivity]. cbn [md_tokens md_front md_string].
  apply (both_bind _ scope_fields); [apply phase_fields; auto; apply stack_refl|]. intros x x' (_ & _ & K). destruct K as [|f f' ? ? F]; [reflexivity|].
  unfold is_base. destruct F as (N & O & _). rewrite N, O. destruct (text_eqb _ _); [|reflexivity]. destruct (from_utf8 _); [|reflexivity]. cbn. eauto.
Qed.
Lemma preprocess_fields n : forall pr pr' n', kpr pr pr' -> knode n n' -> simf knode (preprocess pr n) (preprocess pr' n').
Proof.
  induction n as [name b pc meta src|name ch src IH] using node_ind2; intros pr pr' n' P N; inversion N as [? ? b' ? pc' ? ? B C|? ? ch' ? H]; subst; cbn [preprocess].
  - destruct C as [|fm fm' t s h F G| | | |]; try (cbn; constructor; auto; constructor; now auto).
    apply (both_bind _ (fun m m' => exists h', m = Markdown fm t s h' /\ m' = Markdown fm' t s h')).
    + apply (both_map eq); [now apply body_fields|]. now intros x x' ->.
    + intros m m' (h' & -> & ->). cbn. constructor; [|now constructor]. destruct B as [B|[[_ [v B]]|[B _]]]; [now left|discriminate|]. right; right. split; [exact B|now eexists].
  - apply (both_bind _ (Forall2 knode)).
    + apply (both_list _ knode); auto. intros x x' I X. rewrite Forall_forall in IH. now apply IH.
    + intros l l' L. cbn. now constructor.
Qed.
Lemma mild_tokens toks : plugins_of orderless toks -> (forall t, In t toks -> fit (t_inner t)) -> Forall mild toks.
Proof. intros P F. apply Forall_forall. intros [k l] Hi. split; [|now apply (F _ Hi)]. intros p E. cbn in E. subst k. now apply (P p l). Qed.
Definition texts_fit (h : host) (ps : list plugin) (content : ent) : Prop :=
  forall ks body toks t, tagged_text content ks body -> SpecGrammar.means (h_ext h) (fns ps) body toks -> In t toks -> fit t.
Lemma text_mild h ps content p ks body toks : plugins_give orderless ps -> texts_fit h ps content -> tagged_text content ks body -> parse_html (h_ext h) (fns ps) p body = Ok toks -> Forall mild toks.
Proof.
  intros PG TF T Q. apply mild_tokens; [apply (parse_plugins _ _ _ _ _ _ PG Q)|]. intros t I. apply (TF ks body (map t_inner toks)); auto; [|now apply in_map].
  apply (GrammarFacts.parse_means _ _ p). now exists toks.
Qed.
Lemma create_fields h ps content root e : plugins_give orderless ps -> texts_fit h ps content -> forall e' dirs name, ent_at content (dirs ++ [name]) e -> sources_fields h name e e' ->
  simf knode (create_from h ps true (root ++ dirs ++ [name]) name e) (create_from h ps true (root ++ dirs ++ [name]) name e').
Proof.
  intros PG TF. induction e as [b| |l IH] using ent_ind2; intros e' dirs name At S; inversion S as [? ? b' F|? ? l' F|]; subst; cbn [create_from].
  - destruct F as [b|b b' t t' X U U' J|b b' t t' fm fm' body X U U' M M' F].
    + destruct (create_from_file h ps true (root ++ dirs ++ [name]) name b) as [n| | |] eqn:C; cbn; auto.
      pose proof (BlameFacts.file_tokens h ps root content name b _ dirs n eq_refl At C) as T. destruct (create_file_kind _ _ _ _ _ _ C) as (pc & -> & _). cbn [n_parsed] in T. constructor; [now left|].
      destruct pc as [toks|m|v|c| |]; try constructor; try (constructor; fail).
      * destruct T as (_ & body & T1 & T2). now apply (text_mild _ _ _ _ _ _ _ PG TF T1 T2).
      * destruct m as [fm toks s o]. cbn [md_tokens] in T. destruct T as (_ & body & T1 & T2). constructor; [now intros k v|]. now apply (text_mild _ _ _ _ _ _ _ PG TF T1 T2).
    + pose proof X as X0. apply extension_spec in X. apply decoding in U. apply decoding in U'. unfold create_from_file. rewrite X, U, U'. change (text_eqb (lit "json") (lit "html")) with false.
      change (text_eqb (lit "json") (lit "md")) with false. change (text_eqb (lit "json") (lit "json")) with true. cbv iota. cbn [ok_or bind].
      destruct (h_json h t), (h_json h t'); cbn in J; try contradiction; cbn; auto. constructor; [|now constructor]. right; left. split; [exact X0|now eexists].
    + assert (T := post_template _ X). assert (TT : tagged_text content (dirs ++ [name]) body) by (exists dirs, name, b, t; eauto 8).
      apply extension_spec in X. apply decoding in U. apply decoding in U'. unfold create_from_file. rewrite X, U, U'. change (text_eqb (lit "md") (lit "html")) with false.
      change (text_eqb (lit "md") (lit "md")) with true. cbv iota. cbn [ok_or bind]. rewrite (parts_parse _ _ _ _ _ _ M), (parts_parse _ _ _ _ _ _ M'). unfold md_result.
      destruct (parse_html _ _ _ body) as [toks| | |] eqn:Q; cbn; auto. constructor; [right; right; split; [exact T|now eexists]|]. constructor; auto. now apply (text_mild _ _ _ _ _ _ _ PG TF TT Q).
  - reflexivity.
  - apply (both_bind _ (Forall2 knode)); [|intros; cbn; now constructor]. eapply both_list; [exact F|]. intros x x' I [N Q]. rewrite N. rewrite Forall_forall in IH.
    rewrite <- app_assoc. apply IH; auto. clear -At I. revert At. generalize (dirs ++ [name]). intros ks. remember (EDir l) as d. induction 1 as [d|l0 k d ks d' J A IHA]; subst; cbn.
    + apply (ea_child _ _ (snd x)); [now destruct x|constructor].
    + apply (ea_child _ _ d); auto.
Qed.
Lemma asked_fit h ps content : (forall k, asked h ps content k -> P0 k) -> texts_fit h ps content.
Proof.
  intros A ks body toks t T M I. split.
  - intros v R. apply Forall_forall. intros k K. apply A. exists ks, body, toks, t. split; [exact T|]. split; [exact M|]. split; [exact I|].
    pose proof (split_char_dotted v) as D. pose proof (split_char_spec c_dot v) as S. destruct (split_char c_dot v) as [x p]. cbn [snd] in K. subst v. now apply (as_reads _ _ x p).
  - intros f v -> R. apply Forall_forall. intros k K. apply A. exists ks, body, toks, (TFun (FFor f)). split; [exact T|]. split; [exact M|]. split; [exact I|].
    pose proof (split_char_dotted v) as D. pose proof (split_char_spec c_dot v) as S. destruct (split_char c_dot v) as [x p]. cbn [snd] in K. subst v. now apply (as_sorts _ _ f x p).
Qed.
Lemma fields_build h osenv mode p name e e' st : (forall k, asked h (st_plugins st) e k -> P0 k) -> plugins_give orderless (st_plugins st) -> sources_fields h name e e' ->
  snd (build h osenv mode (SourceDir p name (Some e')) st) = snd (build h osenv mode (SourceDir p name (Some e)) st) /\
  like_opt output_fields (st_output (fst (build h osenv mode (SourceDir p name (Some e)) st))) (st_output (fst (build h osenv mode (SourceDir p name (Some e')) st))).
Proof.
  intros Ak PG S. apply asked_fit in Ak. unfold build. cbn [sd_path sd_name sd_ent].
  assert (R : like_opt output_fields (st_output st) (st_output st)) by (destruct (st_output st); cbn; auto; apply out_refl).
  assert (C : simf knode (node_new h (st_plugins st) true p name (Some e)) (node_new h (st_plugins st) true p name (Some e'))).
  { unfold node_new. destruct S as [|name l l' F|]; try reflexivity. cbn [create_from]. apply (both_bind _ (Forall2 knode)); [|intros; cbn; now constructor]. eapply both_list; [exact F|]. intros x x' I [N Q]. rewrite N.
    apply (create_fields h (st_plugins st) (EDir l) p (snd x) PG Ak (snd x') [] (fst x)); auto. apply (ea_child _ _ (snd x)); [now destruct x|constructor]. }
  destruct (node_new _ _ _ _ _ (Some e)) as [n|x|q|], (node_new _ _ _ _ _ (Some e')) as [n'|x'|q'|]; cbn in C; try contradiction; subst; auto.
  set (meta := cf_meta (st_config st)). set (vars := build_vars osenv mode).
  assert (P := preprocess_fields n (Processor h (Some n) (Some (base_frame vars)) meta) (Processor h (Some n') (Some (base_frame vars)) meta) n' ltac:(repeat split; auto) C).
  unfold build_tree. destruct (preprocess _ n) as [i|x|q|], (preprocess _ n') as [i'|x'|q'|]; cbn in P; try contradiction; subst; auto. cbn [bind].
  destruct P as [nm b b' pc pc' mt src B K|nm ch ch' src H]; cbn [n_children]; auto.
  destruct (update_fields _ _ H (Env vars None None)) as [-> ME]; [split; discriminate|].
  assert (B := node_fields (NDir nm ch src) (Processor h (Some (NDir nm ch src)) (Some (base_frame vars)) meta) (Processor h (Some (NDir nm ch' src)) (Some (base_frame vars)) meta)
    (env_update (Env vars None None) ch) (NDir nm ch' src)).
  assert (B1 : knode (NDir nm ch src) (NDir nm ch' src)) by now constructor. specialize (B ltac:(repeat split; auto) ME B1). clear B1. cbn [pr_host] in B |- *.
  destruct (build_node _ _ (NDir nm ch src)), (build_node _ _ (NDir nm ch' src)); cbn in B; try contradiction; subst; cbn; auto.
Qed.
End On.
