(** AlikeFacts.v -- runs that differ only in paths and in the environment (C85, C86). *)

From Coq Require Import String List NArith ZArith Bool Lia.
From Verif Require Import Text TextFacts Utf8 Json Base Lexer Syntax Parse Tree Interp Build Disk SpecScope SpecAlike.
From Verif Require Import ScopeFacts TreeFacts.
Import ListNotations.

Lemma both_bind {E B C} (RE : E -> E -> Prop) (RB : B -> B -> Prop) (RC : C -> C -> Prop) r r' k k' :
  both RE RB r r' -> (forall x x', RB x x' -> both RE RC (k x) (k' x')) -> both RE RC (bind r k) (bind r' k').
Proof. intros H K. destruct r, r'; cbn in *; try contradiction; auto. Qed.
Lemma both_map {E F B} (RE : E -> E -> Prop) (RF : F -> F -> Prop) (RB : B -> B -> Prop) g g' r r' :
  both RE RB r r' -> (forall e e', RE e e' -> RF (g e) (g' e')) -> both RF RB (map_err g r) (map_err g' r').
Proof. intros H K. destruct r, r'; cbn in *; try contradiction; auto. Qed.
Lemma both_eq {E B} (r : res E B) : both eq eq r r.
Proof. now destruct r. Qed.
Lemma both_weak {E B} (RE RE' : E -> E -> Prop) (RB RB' : B -> B -> Prop) r r' :
  both RE RB r r' -> (forall e e', RE e e' -> RE' e e') -> (forall x x', RB x x' -> RB' x x') -> both RE' RB' r r'.
Proof. intros H K L. destruct r, r'; cbn in *; try contradiction; auto. Qed.
Lemma both_list {E B C} (RE : E -> E -> Prop) (RB : B -> B -> Prop) (RC : C -> C -> Prop) f f' l l' :
  Forall2 RB l l' -> (forall x x', In x l -> RB x x' -> both RE RC (f x) (f' x')) -> both RE (Forall2 RC) (map_res f l) (map_res f' l').
Proof.
  intros H. induction H as [|x x' l l' X H IH]; intros K; cbn [map_res]; [constructor|]. apply (both_bind RE RC); [apply K; cbn; auto|]. intros y y' Y.
  fold (map_res f) (map_res f'). apply (both_bind RE (Forall2 RC)); [apply IH; intros; apply K; cbn; auto|]. intros; cbn. now constructor.
Qed.

(** ** Variables *)
Section Vars.
  Variable A : option (text -> Prop).
  Definition knows (x : text) : Prop := match A with None => True | Some N => N x end.
  Lemma agree_assoc {B} (l l' : list (text * B)) x : agree A l l' -> knows x -> assoc x l' = assoc x l.
  Proof.
    unfold agree, knows. destruct A as [N|]; [|now intros ->]. intros G a. specialize (G x a). destruct (assoc x l) as [v|] eqn:E.
    - apply assoc_iff. apply G. now apply assoc_iff.
    - destruct (assoc x l') as [v|] eqn:E'; auto. apply assoc_iff in E'. apply G in E'. apply assoc_iff in E'. congruence.
  Qed.
  Definition like_found (k : text) (o o' : option value) : Prop := like_opt (like_value A k) o o'.
  Lemma assoc_like k l l' : Forall2 (fun b b' => fst b' = fst b /\ like_value A (fst b) (snd b) (snd b')) l l' -> like_found k (assoc k l) (assoc k l').
  Proof.
    intros H. induction H as [|[a v] [a' v'] l l' [X Y] H IH]; cbn in *; auto. subst a'. destruct (text_eqb a k) eqn:E; auto. apply text_eqb_eq in E. now subst.
  Qed.
  Lemma lookup_like k st st' : Forall2 (like_frame A) st st' -> like_found k (lookup_frames k st) (lookup_frames k st').
  Proof.
    intros H. induction H as [|f f' st st' (_ & _ & F) H IH]; cbn [lookup_frames]; [exact I|]. apply (assoc_like k) in F. unfold like_found in *.
    destruct (assoc k (fr_vars f)), (assoc k (fr_vars f')); cbn in *; try contradiction; auto.
  Qed.
  (** What reading a variable gives. *)
  Definition like_read (o o' : option value) : Prop := o' = o \/ exists l l', o = Some (VObj l) /\ o' = Some (VObj l').
  Definition may_read (v : text) : Prop := forall x p, ~ In c_dot x -> v = dotted (lit "env") (x :: p) -> knows x.
  Lemma read_like v st st' : Forall2 (like_frame A) st st' -> may_read v -> like_read (get_variable v st) (get_variable v st').
  Proof.
    intros H M. unfold get_variable. pose proof (split_char_dotted v) as D. pose proof (split_char_spec c_dot v) as S. destruct (split_char c_dot v) as [h idx].
    pose proof (lookup_like h _ _ H) as L. unfold like_found in L. destruct (lookup_frames h st) as [x|], (lookup_frames h st') as [x'|]; cbn in L; try contradiction; [|now left].
    destruct L as [->|(-> & l & l' & -> & -> & G)]; [now left|]. destruct idx as [|k idx]; [right; now exists l, l'|]. left. cbn [get_value]. unfold get_step. cbn [get_key get_idx].
    rewrite (agree_assoc l l' k G); auto. apply (M k idx); auto. destruct S as [_ S]. now inversion S.
  Qed.
End Vars.

(** ** Trees *)
Section Trees.
  Variable R : path -> path -> Prop.
  Variable A : option (text -> Prop).
  Definition good (t : ltoken) : Prop :=
    (forall v, reads_var (t_inner t) v -> may_read A v) /\ (forall p, t_inner t = TFun (FPlugin p) -> steady_fn R A p).
  Inductive like_parsed : parsed -> parsed -> Prop :=
  | lp_html t t' : like_tokens R t t' -> Forall good t -> like_parsed (PHtml t) (PHtml t')
  | lp_md fm t t' s h : like_tokens R t t' -> Forall good t -> like_parsed (PMarkdown (Markdown fm t s h)) (PMarkdown (Markdown fm t' s h))
  | lp_json v : like_parsed (PJson v) (PJson v)
  | lp_custom c c' : like_processor R A c c' -> like_parsed (PCustom c) (PCustom c')
  | lp_none : like_parsed PNone PNone
  | lp_ignored : like_parsed PIgnored PIgnored.
  Inductive like_node : node -> node -> Prop :=
  | ln_file name b pc pc' meta src src' : R src src' -> like_parsed pc pc' -> like_node (NFile name b pc meta src) (NFile name b pc' meta src')
  | ln_dir name ch ch' src src' : R src src' -> Forall2 like_node ch ch' -> like_node (NDir name ch src) (NDir name ch' src').
  Lemma like_name n n' : like_node n n' -> n_name n' = n_name n.
  Proof. now intros []. Qed.
  Lemma like_child c ch ch' : Forall2 like_node ch ch' -> like_opt like_node (find_child c ch) (find_child c ch').
  Proof.
    intros H. unfold find_child. induction H as [|n n' ch ch' N H IH]; cbn [find]; [exact I|]. rewrite (like_name _ _ N). now destruct (text_eqb _ _).
  Qed.
  Lemma like_walk p : forall n n', like_node n n' -> like_opt like_node (walk n p) (walk n' p).
  Proof.
    induction p as [|c p IH]; intros n n' N; cbn [walk]; auto. destruct N as [|name ch ch' src src' S H]; [exact I|]. cbn [n_children].
    pose proof (like_child c _ _ H) as L. destruct (find_child c ch), (find_child c ch'); cbn in L; try contradiction; auto.
  Qed.
  Lemma like_at n n' p : like_node n n' -> like_opt like_node (get_at_path n p) (get_at_path n' p).
  Proof. intros N. unfold get_at_path. destruct (components p); [now apply like_walk|exact I]. Qed.
  Lemma like_values {E} ch ch' : Forall2 like_node ch ch' -> @md_values E ch' = md_values ch.
  Proof.
    intros H. induction H as [|n n' ch ch' N H IH]; cbn [md_values]; auto. destruct N as [name b pc pc' meta src src' S P|]; cbn [n_parsed]; auto. destruct P; auto. now rewrite IH.
  Qed.
End Trees.

(** ** Running *)
Section Running.
  Variable R : path -> path -> Prop.
  Variable A : option (text -> Prop).
  Variables w w' : world.
  Hypothesis Hh : w_host w' = w_host w.
  Hypothesis Hi : like_node R A (w_input w) (w_input w').
  Hypothesis Ht : like_tokens R (w_toks w) (w_toks w').
  Hypothesis Hg : Forall (good R A) (w_toks w).
  Notation sim := (both (like_tb R) (like_scope A)).
  Notation simk := (both (@eq process_error) (like_scope A)).

  Lemma tokens_length : length (w_toks w') = length (w_toks w).
  Proof. generalize Ht. generalize (w_toks w) (w_toks w'). intros l l' H. induction H; cbn; auto. Qed.
  Lemma nth_like i : match nth_error (w_toks w) i, nth_error (w_toks w') i with Some t, Some t' => like_token R t t' /\ good R A t | None, None => True | _, _ => False end.
  Proof.
    generalize Ht Hg. generalize (w_toks w) (w_toks w'). intros l l' H. revert i. induction H as [|t t' l l' T H IH]; intros [|i] G; cbn [nth_error]; auto; inversion G; subst; auto. now apply IH.
  Qed.
  Lemma next_like s s' : like_scope A s s' -> match next_token w s, next_token w' s' with Some (t, s1), Some (t', s1') => like_token R t t' /\ good R A t /\ like_scope A s1 s1' | None, None => True | _, _ => False end.
  Proof.
    intros (I & S & F). unfold next_token. rewrite I. pose proof (nth_like (sc_idx s)) as N. destruct (nth_error (w_toks w) (sc_idx s)), (nth_error (w_toks w') (sc_idx s)); try contradiction; auto.
    destruct N as [N G]. split; auto. split; auto. repeat split; auto.
  Qed.
  Lemma height_like s s' : like_scope A s s' -> length (sc_stack s') = length (sc_stack s).
  Proof. intros (_ & _ & F). induction F; cbn; auto. Qed.
  Lemma current_like s s' k k' : like_scope A s s' -> (forall l l', like_loc R l l' -> sim (k l) (k' l')) -> sim (with_current w s k) (with_current w' s' k').
  Proof.
    intros (I & _) K. unfold with_current, current. rewrite I. destruct (sc_idx s) as [|i]; [reflexivity|]. pose proof (nth_like i) as N.
    destruct (nth_error (w_toks w) i), (nth_error (w_toks w') i); try contradiction; [|reflexivity]. destruct N as [[_ N] _]. now apply K.
  Qed.
  Lemma push_like f f' s s' : like_frame A f f' -> like_scope A s s' -> like_scope A (push_frame f s) (push_frame f' s').
  Proof. intros F (I & S & K). repeat split; auto. cbn. now constructor. Qed.
  Lemma frame_refl f : like_frame A f f.
  Proof. repeat split; auto. induction (fr_vars f); constructor; auto. split; auto. now left. Qed.
  Lemma out_like b f f' : like_frame A f f' -> like_frame A (add_out b f) (add_out b f').
  Proof. intros (N & O & V). repeat split; cbn; auto. now rewrite O. Qed.
  Lemma output_like b s s' : like_scope A s s' -> simk (output b s) (output b s').
  Proof.
    intros (I & S & K). unfold output. destruct K; [reflexivity|]. repeat split; auto. cbn. constructor; auto. now apply out_like.
  Qed.
  Lemma emit_like b s s' : like_scope A s s' -> sim (emit b s) (emit b s').
  Proof.
    intros (I & S & K). unfold emit. destruct K; [reflexivity|]. repeat split; auto. cbn. constructor; auto. now apply out_like.
  Qed.
  Lemma string_like v s s' : like_scope A s s' -> may_read A v -> string_var v s' = string_var v s.
  Proof.
    intros (_ & _ & K) M. unfold string_var. destruct (read_like A v _ _ K M) as [->|(l & l' & -> & ->)]; reflexivity.
  Qed.
  Lemma printed_like v st st' : Forall2 (like_frame A) st st' -> may_read A v -> var_string v st' = var_string v st.
  Proof. intros K M. unfold var_string. destruct (read_like A v _ _ K M) as [->|(l & l' & -> & ->)]; reflexivity. Qed.
  Lemma input_like i st st' : Forall2 (like_frame A) st st' -> (forall v, i = IVar v -> may_read A v) -> eval_input i st' = eval_input i st.
  Proof. intros K M. destruct i as [v|t|z]; auto. cbn [eval_input]. destruct (read_like A v _ _ K (M v eq_refl)) as [->|(l & l' & -> & ->)]; reflexivity. Qed.
  Lemma source_like f st st' : Forall2 (like_frame A) st st' -> (ff_type f = SrcVar -> may_read A (ff_src f)) -> for_values w' f st' = for_values w f st.
  Proof.
    intros K M. unfold for_values. destruct (ff_type f).
    - pose proof (like_at R A _ _ (ff_src f) Hi) as L. destruct (get_at_path (w_input w) _) as [n|], (get_at_path (w_input w') _) as [n'|]; cbn in L; try contradiction; auto.
      destruct L as [|name ch ch' src src' S H]; auto. now apply (like_values R A).
    - pose proof (like_at R A _ _ (ff_src f) Hi) as L. destruct (get_at_path (w_input w) _) as [n|], (get_at_path (w_input w') _) as [n'|]; cbn in L; try contradiction; auto.
      destruct L as [name b pc pc' meta src src' S P|]; auto. destruct P; auto.
    - destruct (read_like A _ _ _ K (M eq_refl)) as [->|(l & l' & -> & ->)]; reflexivity.
  Qed.
  Lemma import_like v file s s' : like_scope A s s' -> simk (exec_import w v file s) (exec_import w' v file s').
  Proof.
    intros (I & S & K). unfold exec_import. pose proof (like_at R A _ _ file Hi) as L.
    destruct (get_at_path (w_input w) _) as [n|], (get_at_path (w_input w') _) as [n'|]; cbn in L; try contradiction; [|reflexivity].
    destruct L as [name b pc pc' meta src src' _ P|]; [|reflexivity]. destruct P; try reflexivity. destruct K as [|f f' st st' F K]; [reflexivity|].
    destruct F as (N & O & V). pose proof (assoc_like A v _ _ V) as L. unfold like_found in L. destruct (assoc v (fr_vars f)), (assoc v (fr_vars f')); cbn in L; try contradiction; [reflexivity|].
    repeat split; auto. cbn. constructor; auto. repeat split; cbn; auto. apply Forall2_app; auto. constructor; auto. split; auto. now left.
  Qed.
  Lemma end_like label custom s s' : like_scope A s s' -> simk (exec_end label custom s) (exec_end label custom s').
  Proof.
    intros (I & S & K). unfold exec_end. destruct K as [|f f' st st' F K]; [reflexivity|]. destruct F as (N & O & V). rewrite N, O.
    assert (L : like_scope A (set_stack st s) (set_stack st' s')) by (repeat split; auto). destruct custom.
    - destruct (text_eqb _ _); [|reflexivity]. apply (both_bind _ (like_scope A)); [now apply output_like|]. intros x x' (I' & S' & K'). repeat split; auto. cbn. now rewrite S'.
    - destruct (starts_with _ _); [|reflexivity]. now apply output_like.
  Qed.
  Lemma else_like s s' : like_scope A s s' -> simk (exec_else s) (exec_else s').
  Proof.
    intros L. pose proof L as (I & S & K). unfold exec_else. destruct K as [|f f' st st' F K]; [reflexivity|]. destruct F as (N & O & V). rewrite N. destruct (starts_with _ _); [exact L|reflexivity].
  Qed.
  Lemma insert_like label s s' : like_scope A s s' -> simk (exec_insert label s) (exec_insert label s').
  Proof.
    intros (I & S & K). unfold exec_insert. rewrite S. destruct K as [|f f' st st' F K]; [reflexivity|]. destruct (assoc label _); [|reflexivity].
    repeat split; auto. cbn. constructor; auto. now apply out_like.
  Qed.
  Lemma date_like v fmt s s' : like_scope A s s' -> may_read A v -> simk (exec_date (w_host w) v fmt s) (exec_date (w_host w) v fmt s').
  Proof.
    intros L M. unfold exec_date. destruct (h_date _) as [d|]; [|reflexivity]. rewrite (string_like v s s' L M). apply (both_bind _ eq); [apply both_eq|]. intros x x' ->. destruct (d x' fmt); [|reflexivity].
    now apply output_like.
  Qed.
  Lemma tb_like l l' (k : process_error) : like_loc R l l' -> like_tb R (tb l k) (tb l' k).
  Proof. intros (P & L & C). repeat split; auto. Qed.
  Lemma located_like s s' r r' : like_scope A s s' -> simk r r' -> sim (with_current w s (fun l => map_err (tb l) r)) (with_current w' s' (fun l => map_err (tb l) r')).
  Proof. intros L H. apply current_like; auto. intros l l' Q. apply (both_map eq); auto. intros e e' ->. now apply tb_like. Qed.

  Definition agrees (ex ex' : ltoken -> scope -> xres scope) : Prop := forall t t' s s', like_token R t t' -> good R A t -> like_scope A s s' -> sim (ex t s) (ex' t' s').
  Lemma block_like ex ex' h eof eof' k : agrees ex ex' -> like_tb R eof eof' -> forall s s', like_scope A s s' -> sim (run_block ex w h eof k s) (run_block ex' w' h eof' k s').
  Proof.
    intros X E. induction k as [|k IH]; intros s s' L; cbn [run_block]; rewrite (height_like _ _ L); destruct (Nat.leb _ _); auto; [exact I|].
    pose proof (next_like _ _ L) as N. destruct (next_token w s) as [[t s1]|], (next_token w' s') as [[t' s1']|]; try contradiction; [|exact E].
    destruct N as (T & G & S). apply (both_bind _ (like_scope A)); [now apply X|]. intros; now apply IH.
  Qed.
  Lemma cond_like ex ex' h eof eof' k : agrees ex ex' -> like_tb R eof eof' -> forall c s s', like_scope A s s' -> sim (run_cond ex w h eof k c s) (run_cond ex' w' h eof' k c s').
  Proof.
    intros X E. induction k as [|k IH]; intros c s s' L; cbn [run_cond]; rewrite (height_like _ _ L); destruct (Nat.leb _ _); auto; [exact I|].
    pose proof (next_like _ _ L) as N. destruct (next_token w s) as [[t s1]|], (next_token w' s') as [[t' s1']|]; try contradiction; [|exact E].
    destruct N as (T & G & S). replace (token_fn_name t') with (token_fn_name t) by (unfold token_fn_name; now rewrite (proj1 T)). rewrite (height_like _ _ S).
    destruct (token_fn_name t) as [nm| | |] eqn:F; cbn [bind]; try exact I; [| |reflexivity].
    - destruct (c || _); [|now apply IH]. apply (both_bind _ (like_scope A)); [now apply X|]. intros; now apply IH.
    - unfold token_fn_name in F. destruct (t_inner t) as [| |]; try discriminate. destruct (func_name _); discriminate.
  Qed.
  Lemma loop_like ex ex' name wp eof eof' vs : agrees ex ex' -> like_tb R eof eof' -> forall s s', like_scope A s s' -> sim (for_loop ex w name wp eof vs s) (for_loop ex' w' name wp eof' vs s').
  Proof.
    intros X E. induction vs as [|v vs IH]; intros s s' L; cbn [for_loop]; [exact L|]. rewrite tokens_length.
    assert (L1 : like_scope A (set_idx wp s) (set_idx wp s')) by (destruct L as (I & S & K); repeat split; auto). rewrite (height_like _ _ L1).
    apply (both_bind _ (like_scope A)); [|intros; now apply IH]. apply block_like; auto. apply push_like; auto. apply frame_refl.
  Qed.
  Lemma fn_like ex ex' t f s s' : agrees ex ex' -> good R A t -> t_inner t = TFun f -> like_scope A s s' -> sim (exec_fn ex w f s) (exec_fn ex' w' f s').
  Proof.
    intros X [G1 G2] T L. unfold exec_fn. rewrite T in G1, G2. rewrite tokens_length, Hh.
    destruct f as [label custom|v fmt| |label custom|v k|ff|v|v file|label|v|c a b|p].
    - cbn. apply push_like; auto. apply frame_refl.
    - apply located_like; auto. apply date_like; auto. apply G1. constructor.
    - apply located_like; auto. now apply else_like.
    - apply located_like; auto. now apply end_like.
    - apply located_like; auto. rewrite (string_like v s s' L); [|apply G1; constructor]. apply (both_bind _ eq); [apply both_eq|]. intros x x' ->. now apply output_like.
    - apply current_like; auto. intros l l' Q. rewrite (source_like ff (sc_stack s) (sc_stack s')); [|apply L|intros F; apply G1; now constructor].
      apply (both_bind _ eq); [apply (both_map eq); [apply both_eq|]; intros e e' ->; now apply tb_like|]. intros vs vs' ->. rewrite (proj1 L). apply loop_like; auto. now apply tb_like.
    - apply current_like; auto. intros l l' Q. rewrite (height_like _ _ L).
      assert (D : like_read (get_variable v (sc_stack s)) (get_variable v (sc_stack s'))) by (apply (read_like A); [apply L|apply G1; constructor]).
      replace (match get_variable v (sc_stack s') with Some VNull => false | Some _ => true | None => false end) with (match get_variable v (sc_stack s) with Some VNull => false | Some _ => true | None => false end)
        by (destruct D as [->|(o & o' & -> & ->)]; reflexivity).
      apply cond_like; auto; [now apply tb_like|]. apply push_like; auto. apply frame_refl.
    - apply located_like; auto. now apply import_like.
    - apply located_like; auto. now apply insert_like.
    - apply located_like; auto. rewrite (string_like v s s' L); [|apply G1; constructor]. apply (both_bind _ eq); [apply both_eq|]. intros x x' ->. now apply output_like.
    - apply current_like; auto. intros l l' Q. rewrite (height_like _ _ L). rewrite !(input_like _ (sc_stack s) (sc_stack s')); try apply L; try (intros v ->; apply G1; constructor).
      apply (both_bind _ eq); [destruct (eval_input a _); cbn; auto; now apply tb_like|]. intros x x' ->.
      apply (both_bind _ eq); [destruct (eval_input b _); cbn; auto; now apply tb_like|]. intros y y' ->.
      apply cond_like; auto; [now apply tb_like|]. apply push_like; auto. apply frame_refl.
    - apply current_like; auto. intros l l' Q. now apply (G2 p eq_refl).
  Qed.
  Lemma exec_like n : agrees (exec n w) (exec n w').
  Proof.
    induction n as [|n IH]; intros t t' s s' T G L; cbn [exec]; [exact I|]. rewrite (proj1 T). destruct (t_inner t) as [r|f|v] eqn:F.
    - now apply emit_like.
    - now apply (fn_like _ _ t).
    - rewrite (printed_like v (sc_stack s) (sc_stack s')); [|apply L|apply (proj1 G); rewrite F; constructor].
      destruct (var_string v _); cbn; auto; [now apply emit_like|apply tb_like; apply T].
  Qed.
  Lemma run_like s s' : like_scope A s s' -> sim (Interp.run w s) (Interp.run w' s').
  Proof.
    unfold Interp.run. rewrite tokens_length. generalize (S (length (w_toks w))) at 1 3. intros k. generalize (S (length (w_toks w))). intros n. revert s s'.
    induction k as [|k IH]; intros s s' L; cbn [run_all]; [exact I|]. pose proof (next_like _ _ L) as N.
    destruct (next_token w s) as [[t s1]|], (next_token w' s') as [[t' s1']|]; try contradiction; [|exact L].
    destruct N as (T & G & S). apply (both_bind _ (like_scope A)); [now apply exec_like|]. intros; now apply IH.
  Qed.
End Running.

(** ** Building *)
Section Building.
  Variable R : path -> path -> Prop.
  Variable A : option (text -> Prop).
  Notation sim := (both (like_tb R) (like_scope A)).
  Definition like_pr (pr pr' : processor) : Prop :=
    pr_host pr' = pr_host pr /\ pr_meta pr' = pr_meta pr /\ like_opt (like_node R A) (pr_input pr) (pr_input pr') /\
    like_opt (fun b b' => like_frame A b b') (pr_base pr) (pr_base pr').
  Lemma phase_like pr pr' toks toks' st st' secs : like_pr pr pr' -> like_tokens R toks toks' -> Forall (good R A) toks -> Forall2 (like_frame A) st st' ->
    sim (phase pr toks st secs) (phase pr' toks' st' secs).
  Proof.
    intros (H & _ & N & _) T G F. unfold phase. destruct (pr_input pr) as [n|], (pr_input pr') as [n'|]; cbn in N; try contradiction; [|reflexivity].
    apply (run_like R A); auto. repeat split; auto.
  Qed.
  Lemma src_like src src' (k : process_error) : R src src' -> like_tb R (TB src 0 0 k) (TB src' 0 0 k).
  Proof. intros S. repeat split; auto. Qed.
  Lemma phases_like pr pr' src src' toks toks' root root' f f' b b' : like_pr pr pr' -> R src src' -> like_tokens R toks toks' -> Forall (good R A) toks ->
    like_tokens R root root' -> Forall (good R A) root -> like_frame A f f' -> like_frame A b b' ->
    both (like_tb R) eq (two_phases pr src toks root f b) (two_phases pr' src' toks' root' f' b').
  Proof.
    intros P S T G T2 G2 F B. unfold two_phases. apply (both_bind _ (like_scope A)); [apply phase_like; auto|]. intros s s' (_ & Q & K).
    destruct K as [|x x' st st' X K]; [now apply src_like|]. unfold is_base. rewrite (proj1 X). destruct (text_eqb _ _); [|now apply src_like].
    rewrite Q. apply (both_bind _ (like_scope A)); [apply phase_like; auto|]. intros s2 s2' (_ & _ & K2). destruct K2 as [|y y' ? ? Y]; [reflexivity|]. symmetry. apply Y.
  Qed.
  Definition env_fine (e e' : env) : Prop := like_env R A e e' /\ (forall t, ev_root e = Some t -> Forall (good R A) t) /\ (forall t, ev_md e = Some t -> Forall (good R A) t).
  Lemma html_like pr pr' e e' src src' toks toks' : like_pr pr pr' -> env_fine e e' -> R src src' -> like_tokens R toks toks' -> Forall (good R A) toks ->
    both (like_tb R) eq (process_html pr e src toks) (process_html pr' e' src' toks').
  Proof.
    intros P ((_ & Er & _) & Gr & _) S T G. unfold process_html. destruct (ev_root e) as [root|], (ev_root e') as [root'|]; cbn in Er; try contradiction; cbn [ok_or bind]; [|now apply src_like].
    pose proof P as (_ & _ & _ & B). destruct (pr_base pr) as [b|], (pr_base pr') as [b'|]; cbn in B; try contradiction; [|reflexivity].
    apply (both_bind _ eq); [apply phases_like; auto|]. intros x x' ->. reflexivity.
  Qed.
  Lemma var_like k v f f' : like_frame A f f' -> like_frame A (add_var k v f) (add_var k v f').
  Proof. intros (N & O & V). repeat split; cbn; auto. apply Forall2_app; auto. constructor; auto. split; auto. now left. Qed.
  Lemma md_like pr pr' e e' src src' name fm toks toks' s h : like_pr pr pr' -> env_fine e e' -> R src src' ->
    both (like_tb R) eq (process_markdown pr e src name (Markdown fm toks s h)) (process_markdown pr' e' src' name (Markdown fm toks' s h)).
  Proof.
    intros P ((_ & Er & Em) & Gr & Gm) S. unfold process_markdown. destruct (ev_root e) as [root|], (ev_root e') as [root'|]; cbn in Er; try contradiction; cbn [ok_or bind]; [|now apply src_like].
    destruct (ev_md e) as [mt|], (ev_md e') as [mt'|]; cbn in Em; try contradiction; cbn [ok_or bind]; [|now apply src_like].
    pose proof P as (_ & _ & _ & B). destruct (pr_base pr) as [b|], (pr_base pr') as [b'|]; cbn in B; try contradiction; [|reflexivity].
    unfold md_to_value. cbn [md_html md_string md_front]. destruct h as [t|]; cbn [bind]; [|reflexivity].
    apply (both_bind _ eq); [apply phases_like; auto; now apply var_like|]. intros x x' ->. destruct (strip_suffix _ _); reflexivity.
  Qed.
  Lemma json_like pc pc' : like_parsed R A pc pc' -> parsed_to_json pc' = parsed_to_json pc.
  Proof. intros []; cbn; auto. destruct H as [H _]. now rewrite H. Qed.
  Lemma file_like pr pr' e e' name b pc pc' src src' : like_pr pr pr' -> env_fine e e' -> R src src' -> like_parsed R A pc pc' ->
    both (like_error R) (like_output R) (process_file pr e name b pc src) (process_file pr' e' name b pc' src').
  Proof.
    intros P E S C. unfold process_file. apply (both_bind _ eq).
    - destruct (is_template_name name); [reflexivity|]. destruct C; try reflexivity.
      + apply (both_map (like_tb R)); [now apply html_like|]. intros; now constructor.
      + apply (both_map (like_tb R)); [now apply md_like|]. intros; now constructor.
      + destruct H as [_ H]. rewrite (H e e' (proj1 E)). destruct (np_process c e); [constructor|reflexivity].
    - intros o o' ->. cbn. replace (pr_meta pr') with (pr_meta pr) by (symmetry; apply P). rewrite (json_like _ _ C). now constructor.
  Qed.
  Lemma update_like e e' ch ch' : env_fine e e' -> Forall2 (like_node R A) ch ch' -> env_fine (env_update e ch) (env_update e' ch').
  Proof.
    intros E H. unfold env_update. revert e e' E. induction H as [|n n' ch ch' N H IH]; intros e e' E; cbn [fold_left]; auto. apply IH. clear IH H.
    destruct E as ((V & Er & Em) & Gr & Gm). unfold env_child. rewrite (like_name _ _ _ _ N).
    assert (T : like_opt (like_tokens R) (match n_parsed n with PHtml t => Some t | _ => None end) (match n_parsed n' with PHtml t => Some t | _ => None end) /\
      forall t, match n_parsed n with PHtml t => Some t | _ => None end = Some t -> Forall (good R A) t).
    { destruct N as [name b pc pc' meta src src' S C|]; cbn [n_parsed]; [|split; [exact I|discriminate]]. destruct C; split; try exact I; try discriminate; auto. now intros x [= <-]. }
    destruct T as [T1 T2]. unfold env_fine, like_env. destruct (text_eqb _ _); [|destruct (text_eqb _ _)]; cbn [ev_vars ev_root ev_md]; auto 6.
  Qed.
  Lemma node_like n : forall pr pr' e e' n', like_pr pr pr' -> env_fine e e' -> like_node R A n n' ->
    both (like_error R) (like_output R) (build_node pr e n) (build_node pr' e' n').
  Proof.
    induction n as [name b pc meta src|name ch src IH] using node_ind2; intros pr pr' e e' n' P E N; inversion N as [? ? ? pc' ? ? src' S C|? ? ch' ? src' S H]; subst; cbn [build_node].
    - now apply file_like.
    - apply (both_bind _ (Forall2 (like_output R))).
      + apply (both_list _ (like_node R A)); auto. intros x x' I X. rewrite Forall_forall in IH. apply IH; auto. now apply update_like.
      + intros l l' L. cbn. now constructor.
  Qed.
  Lemma body_like pr pr' src src' fm toks toks' s h : like_pr pr pr' -> R src src' -> like_tokens R toks toks' -> Forall (good R A) toks ->
    both (like_tb R) (fun m m' => exists h', m = Markdown fm toks s h' /\ m' = Markdown fm toks' s h') (preprocess_markdown pr src (Markdown fm toks s h)) (preprocess_markdown pr' src' (Markdown fm toks' s h)).
  Proof.
    intros P S T G. unfold preprocess_markdown. pose proof P as (Hh & _ & _ & B). destruct (pr_base pr) as [b|], (pr_base pr') as [b'|]; cbn in B; try contradiction; [|reflexivity].
    cbn [md_tokens md_front md_string]. apply (both_bind _ (like_scope A)); [apply phase_like; auto|]. intros x x' (_ & _ & K). destruct K as [|f f' ? ? F]; [now apply src_like|].
    unfold is_base. destruct F as (N & O & _). rewrite N, O, Hh. destruct (text_eqb _ _); [|now apply src_like]. destruct (from_utf8 _); [|now apply src_like]. cbn. eauto.
  Qed.
  Lemma preprocess_like n : forall pr pr' n', like_pr pr pr' -> like_node R A n n' -> both (like_error R) (like_node R A) (preprocess pr n) (preprocess pr' n').
  Proof.
    induction n as [name b pc meta src|name ch src IH] using node_ind2; intros pr pr' n' P N; inversion N as [? ? ? pc' ? ? src' S C|? ? ch' ? src' S H]; subst; cbn [preprocess].
    - destruct C as [| fm t t' s h T G| | | |]; try (cbn; constructor; auto; constructor; now auto).
      apply (both_bind _ (fun m m' => exists h', m = Markdown fm t s h' /\ m' = Markdown fm t' s h')).
      + apply (both_map (like_tb R)); [now apply body_like|]. intros; now constructor.
      + intros m m' (h' & -> & ->). cbn. constructor; auto. now constructor.
    - apply (both_bind _ (Forall2 (like_node R A))).
      + apply (both_list _ (like_node R A)); auto. intros x x' I X. rewrite Forall_forall in IH. now apply IH.
      + intros l l' L. cbn. now constructor.
  Qed.
  Lemma base_like vars vars' : agree A vars vars' -> like_frame A (base_frame vars) (base_frame vars').
  Proof.
    intros G. repeat split. cbn. constructor; [|constructor]. split; auto. right. split; auto. do 2 eexists. split; [reflexivity|]. split; [reflexivity|].
    unfold agree in *. destruct A as [N|]; [|now subst].
    intros x a v. specialize (G x a). rewrite <- !assoc_iff. assert (M : forall l : list (text * text), assoc x (map (fun kv => (fst kv, VStr (snd kv))) l) = match assoc x l with Some y => Some (VStr y) | None => None end).
    { induction l as [|[k y] l IH]; cbn; auto. now destruct (text_eqb k x). }
    rewrite !M. assert (Q : assoc x vars = assoc x vars').
    { destruct (assoc x vars) as [y|] eqn:E; [symmetry; apply assoc_iff, G, assoc_iff; exact E|]. destruct (assoc x vars') as [y|] eqn:E'; auto. apply assoc_iff, G, assoc_iff in E'. congruence. }
    now rewrite Q.
  Qed.
  Lemma tree_like h meta vars vars' n n' : agree A vars vars' -> like_node R A n n' ->
    both (like_error R) (fun x x' => like_node R A (fst x) (fst x') /\ like_output R (snd x) (snd x')) (build_tree h meta vars n) (build_tree h meta vars' n').
  Proof.
    intros G N. unfold build_tree. assert (Q : forall x x', like_node R A x x' -> like_pr (Processor h (Some x) (Some (base_frame vars)) meta) (Processor h (Some x') (Some (base_frame vars')) meta)).
    { intros x x' X. repeat split; auto; now apply base_like. }
    apply (both_bind _ (like_node R A)); [apply preprocess_like; auto|]. intros x x' X. assert (X2 := X). destruct X as [|name ch ch' src src' S H]; [reflexivity|]. cbn [n_children].
    apply (both_bind _ (like_output R)).
    - apply node_like; auto. apply update_like; auto. unfold env_fine, like_env. cbn. repeat (split; [solve [auto|discriminate]|]); discriminate.
    - intros o o' O. cbn. now split.
  Qed.
End Building.
