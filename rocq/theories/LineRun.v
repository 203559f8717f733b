(** LineRun.v -- builds of sources that differ in the way lines end (C100). *)

From Coq Require Import String List NArith ZArith Bool Lia.
From Verif Require Import Text TextFacts Utf8 Json Base Lexer Syntax Parse Tree Interp Build Js Shipped SpecTemplate SpecGrammar SpecUtf8 SpecScope SpecTree SpecReads SpecLines.
From Verif Require Import Utf8Facts TreeFacts BuildTotal ReadsFacts LocalFacts LineFacts.
Import ListNotations.

Definition goes {E E' B B'} (R : B -> B' -> Prop) (r : res E B) (r' : res E' B') : Prop := forall x, r = Ok x -> exists x', r' = Ok x' /\ R x x'.
Lemma goes_bind {E E' B B' C C'} (RB : B -> B' -> Prop) (RC : C -> C' -> Prop) (r : res E B) (r' : res E' B') k k' :
  goes RB r r' -> (forall x x', RB x x' -> goes RC (k x) (k' x')) -> goes RC (bind r k) (bind r' k').
Proof. intros H K y. destruct r as [x|e|p|]; cbn [bind]; try discriminate. destruct (H x eq_refl) as (x' & -> & X). cbn [bind]. apply (K x x' X). Qed.
Lemma goes_map {E E' F F' B B'} (RB : B -> B' -> Prop) (g : E -> F) (g' : E' -> F') (r : res E B) (r' : res E' B') : goes RB r r' -> goes RB (map_err g r) (map_err g' r').
Proof. intros H y. destruct r as [x|e|p|]; cbn [map_err]; try discriminate. intros [= <-]. destruct (H x eq_refl) as (x' & -> & X). exists x'. split; [reflexivity|exact X]. Qed.
Lemma goes_ok {E E' B B'} (R : B -> B' -> Prop) x x' : R x x' -> goes R (@Ok E B x) (@Ok E' B' x').
Proof. intros H y [= <-]. eauto. Qed.
Lemma goes_not {E E' B B'} (R : B -> B' -> Prop) (r : res E B) (r' : res E' B') : (forall x, r <> Ok x) -> goes R r r'.
Proof. intros H x X. now apply H in X. Qed.
Lemma goes_eq {E B} (r : res E B) : goes eq r r.
Proof. intros x X. eauto. Qed.
Lemma goes_list {E B B' C C'} (RB : B -> B' -> Prop) (RC : C -> C' -> Prop) (f : B -> res E C) (f' : B' -> res E C') l l' :
  Forall2 RB l l' -> (forall x x', In x l -> RB x x' -> goes RC (f x) (f' x')) -> goes (Forall2 RC) (map_res f l) (map_res f' l').
Proof.
  intros H. induction H as [|x x' l l' X H IH]; intros K; cbn [map_res]; [apply goes_ok; constructor|]. apply (goes_bind RC); [apply K; cbn; auto|]. intros y y' Y.
  fold (map_res f) (map_res f'). apply (goes_bind (Forall2 RC)); [apply IH; intros; apply K; cbn; auto|]. intros; apply goes_ok; now constructor.
Qed.
Ltac never := apply goes_not; discriminate.

(** ** Encoded texts *)
Lemma enc_lines t t' : same_lines t t' -> same_but_breaks (enc t) (enc t').
Proof.
  induction 1 as [|c t t' C H IH|e e' t t' L L' H IH]; [constructor| |].
  - change (enc (c :: t)) with (enc1 c ++ enc t). change (enc (c :: t')) with (enc1 c ++ enc t'). apply sb_app; auto. apply sb_refl.
  - unfold enc. rewrite !flat_map_app. apply sb_app; auto. assert (B : forall x, line_end x -> flat_map enc1 x = x) by (intros x [->| ->]; reflexivity). rewrite !B by auto.
    rewrite <- (app_nil_r e), <- (app_nil_r e'). constructor; auto. constructor.
Qed.
Lemma bytes_lines b b' t t' : utf8_text b t -> utf8_text b' t' -> same_lines t t' -> same_but_breaks b b'.
Proof. intros U U' L. apply utf8_text_iff in U as [<- _]. apply utf8_text_iff in U' as [<- _]. now apply enc_lines. Qed.

(** ** Markdown files *)
Lemma strip_none cur : ~ In c_cr cur -> strip_cr (rev cur) = rev cur.
Proof. unfold strip_cr. rewrite rev_involutive. destruct cur as [|c cur]; auto. intros N. destruct (c =? c_cr)%N eqn:E; auto. apply N.eqb_eq in E. subst. destruct N. now left. Qed.
Lemma strip_one cur : strip_cr (rev (c_cr :: cur)) = rev cur.
Proof. unfold strip_cr. rewrite rev_involutive. reflexivity. Qed.
Lemma lines_break cur e t : ~ In c_cr cur -> line_end e -> lines_aux cur (e ++ t) = rev cur :: lines_aux [] t.
Proof.
  intros N [->| ->].
  - cbn [app lines_aux]. change (c_lf =? c_lf)%N with true. cbv iota. now rewrite strip_none.
  - cbn [app lines_aux]. change (c_lf =? c_lf)%N with true. change (c_cr =? c_lf)%N with false. cbv iota. now rewrite strip_one.
Qed.
Lemma lines_lines t t' : same_lines t t' -> lines t' = lines t.
Proof.
  intros H. unfold lines. assert (N : ~ In c_cr ([] : text)) by (intros []). revert N. generalize ([] : text). induction H as [|c t t' [C D] H IH|e e' t t' L L' H IH]; intros cur N; auto.
  - cbn [lines_aux]. destruct (c =? c_lf)%N eqn:E; [apply N.eqb_eq in E; congruence|]. apply IH. intros [->|J]; auto.
  - rewrite !lines_break by auto. f_equal. apply IH. intros [].
Qed.
Definition dashed (t : text) : bool := starts_with (lit "---" ++ [c_lf]) t || starts_with (lit "---" ++ [c_cr; c_lf]) t.
Lemma dashed_iff t : dashed t = true <-> exists e r, line_end e /\ t = lit "---" ++ e ++ r.
Proof.
  unfold dashed. rewrite orb_true_iff, !starts_with_spec. split.
  - intros [(r & ->)|(r & ->)]; rewrite <- app_assoc; eexists; exists r; (split; [|reflexivity]); [now left|now right].
  - intros (e & r & [->| ->] & ->); [left|right]; exists r; now rewrite <- app_assoc.
Qed.
Lemma dashed_half t t' : same_lines t t' -> dashed t = true -> dashed t' = true.
Proof.
  intros L. rewrite !dashed_iff. intros (e & r & E & ->). apply plain_app in L as (b' & -> & L); [|repeat (constructor; [split; discriminate|]); constructor].
  remember (e ++ r) as x eqn:X. destruct L as [|c t t' [C D] L|e1 e1' t t' L1 L1' L].
  - destruct E as [->| ->]; discriminate.
  - destruct E as [->| ->]; cbn in X; injection X as X; congruence.
  - exists e1', t'. split; auto.
Qed.
Lemma dashed_lines t t' : same_lines t t' -> dashed t' = dashed t.
Proof.
  intros L. destruct (dashed t) eqn:E; [now apply (dashed_half t)|]. destruct (dashed t') eqn:E'; auto. apply (dashed_half t' t) in E'; [congruence|]. now apply sb_sym.
Qed.
Lemma markdown_lines ext tbl file t t' : same_lines t t' -> parse_markdown ext tbl file t' = parse_markdown ext tbl file t.
Proof. intros L. unfold parse_markdown. fold (dashed t) (dashed t'). now rewrite (dashed_lines _ _ L), (lines_lines _ _ L). Qed.

(** ** Trees *)
Definition blind (t : ltoken) : Prop := forall p, t_inner t = TFun (FPlugin p) -> blind_fn p.
Inductive parsed_lines : parsed -> parsed -> Prop :=
| pl_html t t' : tokens_lines t t' -> Forall blind t -> parsed_lines (PHtml t) (PHtml t')
| pl_custom c : blind_processor c -> parsed_lines (PCustom c) (PCustom c)
| pl_md m : parsed_lines (PMarkdown m) (PMarkdown m)
| pl_json v : parsed_lines (PJson v) (PJson v)
| pl_none : parsed_lines PNone PNone
| pl_ignored : parsed_lines PIgnored PIgnored.
Inductive node_lines : node -> node -> Prop :=
| nl_file name b b' pc pc' meta src : same_but_breaks b b' -> parsed_lines pc pc' -> node_lines (NFile name b pc meta src) (NFile name b' pc' meta src)
| nl_dir name ch ch' src : Forall2 node_lines ch ch' -> node_lines (NDir name ch src) (NDir name ch' src).
Lemma node_name n n' : node_lines n n' -> n_name n' = n_name n.
Proof. now intros []. Qed.
Lemma child_lines c ch ch' : Forall2 node_lines ch ch' -> opt_lines node_lines (find_child c ch) (find_child c ch').
Proof.
  intros H. unfold find_child. induction H as [|n n' ch ch' N H IH]; cbn [find]; [exact I|]. rewrite (node_name _ _ N). now destruct (text_eqb _ _).
Qed.
Lemma walk_lines p : forall n n', node_lines n n' -> opt_lines node_lines (walk n p) (walk n' p).
Proof.
  induction p as [|c p IH]; intros n n' N; cbn [walk]; auto. destruct N as [|name ch ch' src H]; [exact I|]. cbn [n_children].
  pose proof (child_lines c _ _ H) as L. destruct (find_child c ch), (find_child c ch'); cbn in L; try contradiction; auto.
Qed.
Lemma at_lines n n' p : node_lines n n' -> opt_lines node_lines (get_at_path n p) (get_at_path n' p).
Proof. intros N. unfold get_at_path. destruct (components p); [now apply walk_lines|exact I]. Qed.
Lemma values_lines {E} ch ch' : Forall2 node_lines ch ch' -> @md_values E ch' = md_values ch.
Proof.
  intros H. induction H as [|n n' ch ch' N H IH]; cbn [md_values]; auto. destruct N as [name b b' pc pc' meta src B P|]; cbn [n_parsed]; auto. destruct P; auto. now rewrite IH.
Qed.
Lemma for_lines h n n' toks toks' f st : node_lines n n' -> for_values (World h n' toks') f st = for_values (World h n toks) f st.
Proof.
  intros N. unfold for_values. cbn [w_input]. destruct (ff_type f); auto.
  - pose proof (at_lines _ _ (ff_src f) N) as L. destruct (get_at_path n _) as [m|], (get_at_path n' _) as [m'|]; cbn in L; try contradiction; auto. destruct L; auto. now apply values_lines.
  - pose proof (at_lines _ _ (ff_src f) N) as L. destruct (get_at_path n _) as [m|], (get_at_path n' _) as [m'|]; cbn in L; try contradiction; auto. destruct L as [name b b' pc pc' meta src B P|]; auto. destruct P; auto.
Qed.
Lemma import_same h n n' toks toks' v file s : node_lines n n' -> exec_import (World h n' toks') v file s = exec_import (World h n toks) v file s.
Proof.
  intros N. unfold exec_import. cbn [w_input]. pose proof (at_lines _ _ file N) as L. destruct (get_at_path n _) as [m|], (get_at_path n' _) as [m'|]; cbn in L; try contradiction; auto.
  destruct L as [name b b' pc pc' meta src B P|]; auto. destruct P; auto.
Qed.

(** ** Loading *)
Lemma token_refl l : tokens_lines l l.
Proof. induction l; constructor; auto. constructor. Qed.
Lemma blind_tokens toks : plugins_of blind_fn toks -> Forall blind toks.
Proof. intros P. apply Forall_forall. intros [k l] Hi p E. cbn in E. subst k. now apply (P p l). Qed.
Section Loading.
  Variable h : host.
  Variable ps : list plugin.
  Hypothesis Bl : line_blind ps.
  Lemma blind_give : plugins_give blind_fn ps.
  Proof. intros pl f raw g I J E. now apply (proj1 (Bl pl I) f raw). Qed.
  Lemma blind_custom e np b p c : find_node_parser e ps = Some np -> npa_parse np b p = inr c -> blind_processor c.
  Proof. intros E P. unfold find_node_parser in E. apply find_some in E as [E _]. apply in_flat_map in E as (pl & I & J). now apply (proj2 (Bl pl I) np b p). Qed.
  Lemma create_file_lines p name b b' : file_lines h ps name b b' -> goes node_lines (create_from_file h ps true p name b) (create_from_file h ps true p name b').
  Proof.
    intros F. assert (BB : same_but_breaks b b') by (destruct F; [apply sb_refl|eapply bytes_lines; eauto]).
    unfold create_from_file. apply (goes_bind parsed_lines); [|intros; apply goes_ok; now constructor].
    destruct (extension name) as [e|] eqn:X; [|apply goes_ok; constructor]. apply extension_spec in X.
    destruct F as [b|b b' t t' U U' L Fh Fj Fp].
    - destruct (text_eqb e (lit "html")); [|destruct (text_eqb e (lit "md")); [|destruct (text_eqb e (lit "json"))]].
      + destruct (from_utf8 b) as [t|]; [|never]. cbn [ok_or bind]. destruct (parse_html _ _ p t) as [k| | |] eqn:E; cbn [map_err bind]; try never.
        apply goes_ok. constructor; [apply token_refl|]. apply blind_tokens. apply (parse_plugins _ _ _ _ _ _ blind_give E).
      + intros x. destruct (from_utf8 b) as [t|]; [|discriminate]. cbn [ok_or bind]. destruct (parse_markdown _ _ p t) as [k| | |] eqn:E; cbn [map_err bind]; try discriminate. intros [= <-]. eexists; split; [reflexivity|constructor].
      + intros x. destruct (from_utf8 b) as [t|]; [|discriminate]. cbn [ok_or bind]. destruct (h_json h t) as [v|]; [|discriminate]. cbn [ok_or bind]. intros [= <-]. eexists; split; [reflexivity|constructor].
      + destruct (find_node_parser e ps) as [np|] eqn:E; [|apply goes_ok; constructor]. destruct (npa_parse np b p) as [m|c] eqn:P; [never|]. apply goes_ok. constructor. eapply blind_custom; eauto.
    - apply decoding in U. apply decoding in U'. rewrite U, U'.
      destruct (text_eqb e (lit "html")) eqn:E1; [|destruct (text_eqb e (lit "md")) eqn:E2; [|destruct (text_eqb e (lit "json")) eqn:E3]].
      + apply text_eqb_eq in E1. subst e. cbn [ok_or bind]. destruct (parse_html _ _ p t) as [k| | |] eqn:E; cbn [map_err bind]; try never.
        destruct (parse_lines _ _ _ _ _ _ (Fh X) L E) as (k' & -> & K). apply goes_ok. constructor; auto. apply blind_tokens. apply (parse_plugins _ _ _ _ _ _ blind_give E).
      + cbn [ok_or bind]. rewrite (markdown_lines _ _ _ _ _ L). destruct (parse_markdown _ _ p t) as [k| | |] eqn:E; cbn [map_err bind]; try never. apply goes_ok. constructor.
      + apply text_eqb_eq in E3. subst e. cbn [ok_or bind]. rewrite (Fj X). destruct (h_json h t) as [v|]; [|never]. cbn [ok_or bind]. apply goes_ok. constructor.
      + apply text_eqb_neq in E1, E2, E3. pose proof (find_charge ps e) as C. destruct (find_node_parser e ps) as [np|]; [|apply goes_ok; constructor].
        destruct (Fp e np X); auto. intros [E|[E|[E|[]]]]; congruence.
  Qed.
  Lemma create_lines e : forall e' p name, sources_lines h ps name e e' -> goes node_lines (create_from h ps true p name e) (create_from h ps true p name e').
  Proof.
    induction e as [b| |l IH] using ent_ind2; intros e' p name S; inversion S as [? ? b' F|? ? l' F|]; subst; cbn [create_from].
    - now apply create_file_lines.
    - never.
    - apply (goes_bind (Forall2 node_lines)); [|intros; apply goes_ok; now constructor]. eapply goes_list; [exact F|]. intros x x' I [N Q]. rewrite N. rewrite Forall_forall in IH. now apply IH.
  Qed.
End Loading.

(** ** Running *)
Lemma lookup_lines k st st' : Forall2 frame_lines st st' -> lookup_frames k st' = lookup_frames k st.
Proof. intros H. induction H as [|f f' st st' (_ & F & _) H IH]; cbn [lookup_frames]; auto. now rewrite F, IH. Qed.
Lemma read_lines v st st' : Forall2 frame_lines st st' -> get_variable v st' = get_variable v st.
Proof. intros H. unfold get_variable. destruct (split_char c_dot v) as [x idx]. now rewrite (lookup_lines x _ _ H). Qed.
Section Running.
  Variable h : host.
  Variables n n' : node.
  Variables toks toks' : list ltoken.
  Notation w := (World h n toks).
  Notation w' := (World h n' toks').
  Hypothesis Hi : node_lines n n'.
  Hypothesis Ht : tokens_lines toks toks'.
  Hypothesis Hg : Forall blind toks.
  Notation sim := (goes scope_lines).
  Lemma toks_length : length toks' = length toks.
  Proof. generalize Ht. generalize toks toks'. intros l l' H. induction H; cbn; auto. Qed.
  Lemma nth_lines i : match nth_error toks i, nth_error toks' i with Some t, Some t' => token_lines (t_inner t) (t_inner t') /\ blind t | None, None => True | _, _ => False end.
  Proof.
    generalize Ht Hg. generalize toks toks'. intros l l' H. revert i. induction H as [|t t' l l' T H IH]; intros [|i] G; cbn [nth_error]; auto; inversion G; subst; auto. now apply IH.
  Qed.
  Lemma next_lines s s' : scope_lines s s' -> match next_token w s, next_token w' s' with
    Some (t, s1), Some (t', s1') => token_lines (t_inner t) (t_inner t') /\ blind t /\ scope_lines s1 s1' | None, None => True | _, _ => False end.
  Proof.
    intros (I & S & F). unfold next_token. cbn [w_toks]. rewrite I. pose proof (nth_lines (sc_idx s)) as N. destruct (nth_error toks (sc_idx s)), (nth_error toks' (sc_idx s)); try contradiction; auto.
    destruct N as [N G]. split; auto. split; auto. repeat split; auto.
  Qed.
  Lemma height_lines s s' : scope_lines s s' -> length (sc_stack s') = length (sc_stack s).
  Proof. intros (_ & F & _). induction F; cbn; auto. Qed.
  Lemma current_lines s s' k k' : scope_lines s s' -> (forall l l', sim (k l) (k' l')) -> sim (with_current w s k) (with_current w' s' k').
  Proof.
    intros (I & _) K. unfold with_current, current. cbn [w_toks]. rewrite I. destruct (sc_idx s) as [|i]; [never|]. pose proof (nth_lines i) as N.
    destruct (nth_error toks i), (nth_error toks' i); try contradiction; [|never]. apply K.
  Qed.
  Lemma push_lines f f' s s' : frame_lines f f' -> scope_lines s s' -> scope_lines (push_frame f s) (push_frame f' s').
  Proof. intros F (I & K & S). repeat split; auto. cbn. now constructor. Qed.
  Lemma frame_same f : frame_lines f f.
  Proof. repeat split; auto. apply sb_refl. Qed.
  Lemma out_lines b b' f f' : same_but_breaks b b' -> frame_lines f f' -> frame_lines (add_out b f) (add_out b' f').
  Proof. intros B (N & V & O). repeat split; cbn; auto. now apply sb_app. Qed.
  Lemma output_goes b b' s s' : same_but_breaks b b' -> scope_lines s s' -> sim (output b s) (output b' s').
  Proof. intros B (I & K & S). unfold output. destruct K; [never|]. apply goes_ok. repeat split; auto. cbn. constructor; auto. now apply out_lines. Qed.
  Lemma emit_goes b b' s s' : same_but_breaks b b' -> scope_lines s s' -> sim (emit b s) (emit b' s').
  Proof. intros B (I & K & S). unfold emit. destruct K; [never|]. apply goes_ok. repeat split; auto. cbn. constructor; auto. now apply out_lines. Qed.
  Lemma string_same v s s' : scope_lines s s' -> string_var v s' = string_var v s.
  Proof. intros (_ & K & _). unfold string_var. now rewrite (read_lines v _ _ K). Qed.
  Lemma input_same i st st' : Forall2 frame_lines st st' -> eval_input i st' = eval_input i st.
  Proof. intros K. destruct i; auto. cbn [eval_input]. now rewrite (read_lines v _ _ K). Qed.
  Lemma values_same f st st' : Forall2 frame_lines st st' -> for_values w' f st' = for_values w f st.
  Proof. intros K. rewrite (for_lines h n n' toks toks' f st' Hi). unfold for_values. destruct (ff_type f); auto. now rewrite (read_lines _ _ _ K). Qed.
  Lemma import_goes v file s s' : scope_lines s s' -> sim (exec_import w v file s) (exec_import w' v file s').
  Proof.
    intros (I & K & S). rewrite (import_same h n n' toks toks' v file s' Hi). unfold exec_import. destruct (get_at_path _ _) as [m|]; [|never]. destruct m as [nm b pc meta src|]; [|never]. destruct pc; try never.
    destruct K as [|f f' st st' (N & V & O) K]; [never|]. rewrite V. destruct (assoc v (fr_vars f)); [never|]. apply goes_ok. repeat split; auto. cbn. constructor; auto. repeat split; cbn; auto. now rewrite V.
  Qed.
  Lemma end_goes label custom s s' : scope_lines s s' -> sim (exec_end label custom s) (exec_end label custom s').
  Proof.
    intros (I & K & S). unfold exec_end. destruct K as [|f f' st st' F K]; [never|]. destruct F as (N & V & O). rewrite N.
    assert (L : scope_lines (set_stack st s) (set_stack st' s')) by (repeat split; auto). destruct custom.
    - destruct (text_eqb _ _); [|never]. apply (goes_bind scope_lines); [now apply output_goes|]. intros x x' (I' & K' & S'). apply goes_ok. repeat split; auto. cbn. apply Forall2_app; auto.
    - destruct (starts_with _ _); [|never]. now apply output_goes.
  Qed.
  Lemma else_goes s s' : scope_lines s s' -> sim (exec_else s) (exec_else s').
  Proof.
    intros L. pose proof L as (I & K & S). unfold exec_else. destruct K as [|f f' st st' F K]; [never|]. rewrite (proj1 F). destruct (starts_with _ _); [now apply goes_ok|never].
  Qed.
  Lemma section_lines label l l' : Forall2 (fun a a' : text * bytes => fst a' = fst a /\ same_but_breaks (snd a) (snd a')) l l' -> opt_lines same_but_breaks (assoc label l) (assoc label l').
  Proof. intros H. induction H as [|[a b] [a' b'] l l' [A B] H IH]; cbn in *; auto. subst a'. now destruct (text_eqb a label). Qed.
  Lemma insert_goes label s s' : scope_lines s s' -> sim (exec_insert label s) (exec_insert label s').
  Proof.
    intros (I & K & S). unfold exec_insert. destruct K as [|f f' st st' F K]; [never|]. pose proof (section_lines label _ _ S) as L.
    destruct (assoc label (sc_secs s)) as [b|], (assoc label (sc_secs s')) as [b'|]; cbn in L; try contradiction; [|never].
    apply goes_ok. repeat split; auto. cbn. constructor; auto. now apply out_lines.
  Qed.
  Lemma date_goes v fmt s s' : scope_lines s s' -> sim (exec_date h v fmt s) (exec_date h v fmt s').
  Proof.
    intros L. unfold exec_date. destruct (h_date h) as [d|]; [|never]. rewrite (string_same v s s' L). apply (goes_bind eq); [apply goes_eq|]. intros x x' <-. destruct (d x fmt); [|never].
    apply output_goes; auto. apply sb_refl.
  Qed.
  Lemma located_lines (r r' : res process_error scope) s s' : scope_lines s s' -> sim r r' -> sim (with_current w s (fun l => map_err (tb l) r)) (with_current w' s' (fun l => map_err (tb l) r')).
  Proof. intros L H. apply current_lines; auto. intros l l'. now apply goes_map. Qed.

  Definition agrees (ex ex' : ltoken -> scope -> xres scope) : Prop := forall t t' s s', token_lines (t_inner t) (t_inner t') -> blind t -> scope_lines s s' -> sim (ex t s) (ex' t' s').
  Lemma block_lines ex ex' ht eof eof' k : agrees ex ex' -> forall s s', scope_lines s s' -> sim (run_block ex w ht eof k s) (run_block ex' w' ht eof' k s').
  Proof.
    intros X. induction k as [|k IH]; intros s s' L; cbn [run_block]; rewrite (height_lines _ _ L); destruct (Nat.leb _ _); try (now apply goes_ok); [never|].
    pose proof (next_lines _ _ L) as N. destruct (next_token w s) as [[t s1]|], (next_token w' s') as [[t' s1']|]; try contradiction; [|never].
    destruct N as (T & G & S). apply (goes_bind scope_lines); [now apply X|]. intros; now apply IH.
  Qed.
  Lemma name_lines t t' : token_lines (t_inner t) (t_inner t') -> token_fn_name t' = token_fn_name t.
  Proof. unfold token_fn_name. intros T. destruct T; reflexivity. Qed.
  Lemma cond_lines ex ex' ht eof eof' k : agrees ex ex' -> forall c s s', scope_lines s s' -> sim (run_cond ex w ht eof k c s) (run_cond ex' w' ht eof' k c s').
  Proof.
    intros X. induction k as [|k IH]; intros c s s' L; cbn [run_cond]; rewrite (height_lines _ _ L); destruct (Nat.leb _ _); try (now apply goes_ok); [never|].
    pose proof (next_lines _ _ L) as N. destruct (next_token w s) as [[t s1]|], (next_token w' s') as [[t' s1']|]; try contradiction; [|never].
    destruct N as (T & G & S). rewrite (name_lines _ _ T), (height_lines _ _ S). apply (goes_bind eq); [apply goes_eq|]. intros nm nm' <-.
    destruct (c || _); [|now apply IH]. apply (goes_bind scope_lines); [now apply X|]. intros; now apply IH.
  Qed.
  Lemma loop_lines ex ex' name wp eof eof' vs : agrees ex ex' -> forall s s', scope_lines s s' -> sim (for_loop ex w name wp eof vs s) (for_loop ex' w' name wp eof' vs s').
  Proof.
    intros X. induction vs as [|v vs IH]; intros s s' L; cbn [for_loop]; [now apply goes_ok|]. cbn [w_toks]. rewrite toks_length.
    assert (L1 : scope_lines (set_idx wp s) (set_idx wp s')) by (destruct L as (I & S & K); repeat split; auto). rewrite (height_lines _ _ L1).
    apply (goes_bind scope_lines); [|intros; now apply IH]. apply block_lines; auto. apply push_lines; auto. apply frame_same.
  Qed.
  Lemma fn_lines ex ex' t f s s' : agrees ex ex' -> blind t -> t_inner t = TFun f -> scope_lines s s' -> sim (exec_fn ex w f s) (exec_fn ex' w' f s').
  Proof.
    intros X G T L. unfold exec_fn. cbn [w_toks w_host]. rewrite toks_length.
    destruct f as [label custom|v fmt| |label custom|v k|ff|v|v file|label|v|c a b|p].
    - apply goes_ok. apply push_lines; auto. apply frame_same.
    - apply located_lines; auto. now apply date_goes.
    - apply located_lines; auto. now apply else_goes.
    - apply located_lines; auto. now apply end_goes.
    - apply located_lines; auto. rewrite (string_same v s s' L). apply (goes_bind eq); [apply goes_eq|]. intros x x' <-. apply output_goes; auto. apply sb_refl.
    - apply current_lines; auto. intros l l'. rewrite (values_same ff (sc_stack s) (sc_stack s')); [|apply L].
      apply (goes_bind eq); [apply goes_map, goes_eq|]. intros vs vs' <-. rewrite (proj1 L). now apply loop_lines.
    - apply current_lines; auto. intros l l'. rewrite (height_lines _ _ L), (read_lines v (sc_stack s) (sc_stack s')); [|apply L]. apply cond_lines; auto. apply push_lines; auto. apply frame_same.
    - apply located_lines; auto. now apply import_goes.
    - apply located_lines; auto. now apply insert_goes.
    - apply located_lines; auto. rewrite (string_same v s s' L). apply (goes_bind eq); [apply goes_eq|]. intros x x' <-. apply output_goes; auto. apply sb_refl.
    - apply current_lines; auto. intros l l'. rewrite (height_lines _ _ L). rewrite !(input_same _ (sc_stack s) (sc_stack s')); try apply L.
      apply (goes_bind eq); [destruct (eval_input a _); [now apply goes_ok|never]|]. intros x x' <-.
      apply (goes_bind eq); [destruct (eval_input b _); [now apply goes_ok|never]|]. intros y y' <-.
      apply cond_lines; auto. apply push_lines; auto. apply frame_same.
    - apply current_lines; auto. intros l l' x. now apply (G p T).
  Qed.
  Lemma printed_lines v st st' : Forall2 frame_lines st st' -> var_string v st' = var_string v st.
  Proof. intros K. unfold var_string. now rewrite (read_lines v _ _ K). Qed.
  Lemma exec_lines k : agrees (exec k w) (exec k w').
  Proof.
    induction k as [|k IH]; intros t t' s s' T G L; cbn [exec]; [never|]. remember (t_inner t) as i eqn:Ei. remember (t_inner t') as i' eqn:Ei'. destruct T as [r r' R|i].
    - apply emit_goes; auto. now apply enc_lines.
    - destruct i as [r|f|v].
      + apply emit_goes; auto. apply sb_refl.
      + apply (fn_lines _ _ t); auto.
      + rewrite (printed_lines v (sc_stack s) (sc_stack s')); [|apply L]. destruct (var_string v _); try never. apply emit_goes; auto. apply sb_refl.
  Qed.
  Lemma run_lines s s' : scope_lines s s' -> sim (Interp.run w s) (Interp.run w' s').
  Proof.
    unfold Interp.run. cbn [w_toks]. rewrite toks_length. generalize (S (length toks)) at 1 3. intros k. generalize (S (length toks)). intros m. revert s s'.
    induction k as [|k IH]; intros s s' L; cbn [run_all]; [never|]. pose proof (next_lines _ _ L) as N.
    destruct (next_token w s) as [[t s1]|], (next_token w' s') as [[t' s1']|]; try contradiction; [|now apply goes_ok].
    destruct N as (T & G & S). apply (goes_bind scope_lines); [now apply exec_lines|]. intros; now apply IH.
  Qed.
End Running.

(** ** Building *)
Definition pr_lines (pr pr' : processor) : Prop :=
  pr_host pr' = pr_host pr /\ pr_meta pr' = pr_meta pr /\ pr_base pr' = pr_base pr /\ opt_lines node_lines (pr_input pr) (pr_input pr').
Lemma phase_lines pr pr' toks toks' st st' secs secs' : pr_lines pr pr' -> tokens_lines toks toks' -> Forall blind toks -> Forall2 frame_lines st st' ->
  Forall2 (fun a a' => fst a' = fst a /\ same_but_breaks (snd a) (snd a')) secs secs' -> goes scope_lines (phase pr toks st secs) (phase pr' toks' st' secs').
Proof.
  intros (H & _ & _ & N) T G F S. unfold phase. rewrite H. destruct (pr_input pr) as [n|], (pr_input pr') as [n'|]; cbn in N; try contradiction; [|never].
  apply run_lines; auto. repeat split; auto.
Qed.
Lemma phases_lines pr pr' src toks toks' root root' f b : pr_lines pr pr' -> tokens_lines toks toks' -> Forall blind toks -> tokens_lines root root' -> Forall blind root ->
  goes same_but_breaks (two_phases pr src toks root f b) (two_phases pr' src toks' root' f b).
Proof.
  intros P T G T2 G2. unfold two_phases. apply (goes_bind scope_lines).
  { apply phase_lines; auto. constructor; [apply frame_same|constructor]. }
  intros s s' (_ & K & Q). destruct K as [|x x' st st' X K]; [never|]. unfold is_base. rewrite (proj1 X). destruct (text_eqb _ _); [|never].
  apply (goes_bind scope_lines).
  { apply phase_lines; auto. constructor; auto. apply frame_same. }
  intros s2 s2' (_ & K2 & _). destruct K2 as [|y y' ? ? Y]; [never|]. apply goes_ok. apply Y.
Qed.
Definition env_fine (e e' : env) : Prop := env_lines e e' /\ (forall t, ev_root e = Some t -> Forall blind t) /\ (forall t, ev_md e = Some t -> Forall blind t).
Definition out_same (o o' : process_output) : Prop := po_name o' = po_name o /\ opt_lines same_but_breaks (po_contents o) (po_contents o').
Lemma html_lines pr pr' e e' src toks toks' : pr_lines pr pr' -> env_fine e e' -> tokens_lines toks toks' -> Forall blind toks -> goes out_same (process_html pr e src toks) (process_html pr' e' src toks').
Proof.
  intros P ((_ & Er & _) & Gr & _) T G. unfold process_html. destruct (ev_root e) as [root|], (ev_root e') as [root'|]; cbn in Er; try contradiction; cbn [ok_or bind]; [|never].
  pose proof P as (_ & _ & -> & _). destruct (pr_base pr) as [b|]; [|never]. apply (goes_bind same_but_breaks); [apply phases_lines; auto|]. intros x x' X. apply goes_ok. now split.
Qed.
Lemma md_lines pr pr' e e' src name m : pr_lines pr pr' -> env_fine e e' -> goes out_same (process_markdown pr e src name m) (process_markdown pr' e' src name m).
Proof.
  intros P ((_ & Er & Em) & Gr & Gm). unfold process_markdown. destruct (ev_root e) as [root|], (ev_root e') as [root'|]; cbn in Er; try contradiction; cbn [ok_or bind]; [|never].
  destruct (ev_md e) as [mt|], (ev_md e') as [mt'|]; cbn in Em; try contradiction; cbn [ok_or bind]; [|never].
  pose proof P as (_ & _ & -> & _). destruct (pr_base pr) as [b|]; [|never]. apply (goes_bind eq); [apply goes_eq|]. intros v v' <-.
  apply (goes_bind same_but_breaks); [apply phases_lines; auto|]. intros x x' X. destruct (strip_suffix _ _); [|never]. apply goes_ok. now split.
Qed.
Lemma json_lines pc pc' : parsed_lines pc pc' -> parsed_to_json pc' = parsed_to_json pc.
Proof. now intros []. Qed.
Lemma file_goes pr pr' e e' name b b' pc pc' src : pr_lines pr pr' -> env_fine e e' -> same_but_breaks b b' -> parsed_lines pc pc' ->
  goes output_lines (process_file pr e name b pc src) (process_file pr' e' name b' pc' src).
Proof.
  intros P E B C. unfold process_file. apply (goes_bind out_same).
  - assert (N : out_same (POut None None) (POut None None)) by (split; [reflexivity|exact I]). destruct (is_template_name name); [now apply goes_ok|].
    destruct C as [t t' T G|c Q|m|v| |]; try (now apply goes_ok).
    + apply goes_map. now apply html_lines.
    + destruct (np_process c e) as [x|o] eqn:N1; [never|]. destruct (Q e e' o (proj1 E) N1) as (o' & -> & O1 & O2). apply goes_ok. now split.
    + apply goes_map. now apply md_lines.
  - intros o o' [O1 O2]. apply goes_ok. replace (pr_meta pr') with (pr_meta pr) by (symmetry; apply P). rewrite (json_lines _ _ C), O1. constructor.
    destruct (po_contents o), (po_contents o'); cbn in O2; try contradiction; auto.
Qed.
Lemma update_lines e e' ch ch' : env_fine e e' -> Forall2 node_lines ch ch' -> env_fine (env_update e ch) (env_update e' ch').
Proof.
  intros E H. unfold env_update. revert e e' E. induction H as [|n n' ch ch' N H IH]; intros e e' E; cbn [fold_left]; auto. apply IH. clear IH H.
  destruct E as ((V & Er & Em) & Gr & Gm). unfold env_child. rewrite (node_name _ _ N).
  assert (T : opt_lines tokens_lines (match n_parsed n with PHtml t => Some t | _ => None end) (match n_parsed n' with PHtml t => Some t | _ => None end) /\
    forall t, match n_parsed n with PHtml t => Some t | _ => None end = Some t -> Forall blind t).
  { destruct N as [name b b' pc pc' meta src B C|]; cbn [n_parsed]; [|split; [exact I|discriminate]]. destruct C; split; try exact I; try discriminate; auto. now intros x [= <-]. }
  destruct T as [T1 T2]. unfold env_fine, env_lines. destruct (text_eqb _ _); [|destruct (text_eqb _ _)]; cbn [ev_vars ev_root ev_md]; auto 6.
Qed.
Lemma node_goes n : forall pr pr' e e' n', pr_lines pr pr' -> env_fine e e' -> node_lines n n' -> goes output_lines (build_node pr e n) (build_node pr' e' n').
Proof.
  induction n as [name b pc meta src|name ch src IH] using node_ind2; intros pr pr' e e' n' P E N; inversion N as [? ? b' ? pc' ? ? B C|? ? ch' ? H]; subst; cbn [build_node].
  - now apply file_goes.
  - apply (goes_bind (Forall2 output_lines)).
    + apply (goes_list node_lines); auto. intros x x' I X. rewrite Forall_forall in IH. apply IH; auto. now apply update_lines.
    + intros l l' L. apply goes_ok. now constructor.
Qed.
Lemma run_eq h n n' toks s : node_lines n n' -> forall x, Interp.run (World h n toks) s = Ok x -> Interp.run (World h n' toks) s = Ok x.
Proof.
  intros N x H. apply (ViewFacts.run_view (World h n toks) (World h n' toks)); auto. constructor; cbn [w_host w_toks]; auto.
  - intros t f st vs _ _ F. exists vs. split; auto. now rewrite (for_lines h n n' toks toks f st N).
  - intros t v file s0 s' _ _ F. now rewrite (import_same h n n' toks toks v file s0 N).
Qed.
Lemma preprocess_goes n : forall pr pr' n', pr_lines pr pr' -> node_lines n n' -> goes node_lines (preprocess pr n) (preprocess pr' n').
Proof.
  induction n as [name b pc meta src|name ch src IH] using node_ind2; intros pr pr' n' P N; inversion N as [? ? b' ? pc' ? ? B C|? ? ch' ? H]; subst; cbn [preprocess].
  - destruct C as [t t' T G|c Q|m|v| |]; try (apply goes_ok; constructor; auto; now constructor).
    apply (goes_bind eq); [|intros m1 m1' <-; apply goes_ok; constructor; auto; constructor]. apply goes_map. unfold preprocess_markdown. destruct P as (Ph & _ & Pb & Pi). rewrite Pb, Ph.
    destruct (pr_base pr) as [f|]; [|never]. apply (goes_bind eq); [|intros s s' <-; apply goes_eq]. unfold phase. rewrite Ph.
    destruct (pr_input pr) as [i|], (pr_input pr') as [i'|]; cbn in Pi; try contradiction; [|never]. intros x X. exists x. split; auto. eapply run_eq; eauto.
  - apply (goes_bind (Forall2 node_lines)).
    + apply (goes_list node_lines); auto. intros x x' I X. rewrite Forall_forall in IH. now apply IH.
    + intros l l' L. apply goes_ok. now constructor.
Qed.
Lemma tree_goes h meta vars n n' : node_lines n n' -> goes (fun x x' => output_lines (snd x) (snd x')) (build_tree h meta vars n) (build_tree h meta vars n').
Proof.
  intros N. unfold build_tree. apply (goes_bind node_lines); [apply preprocess_goes; auto; repeat split; auto|]. intros i i' Hi. destruct Hi as [|name ch ch' src H]; cbn [n_children]; [never|].
  apply (goes_bind output_lines); [|intros o o' O; now apply goes_ok]. apply node_goes; [repeat split; auto; cbn; now constructor| |now constructor].
  apply update_lines; auto. split; [repeat split; exact I|]. split; discriminate.
Qed.
Lemma build_goes h osenv mode p name e e' st out : line_blind (st_plugins st) -> sources_lines h (st_plugins st) name e e' ->
  snd (build h osenv mode (SourceDir p name (Some e)) st) = Ok tt -> st_output (fst (build h osenv mode (SourceDir p name (Some e)) st)) = Some out ->
  snd (build h osenv mode (SourceDir p name (Some e')) st) = Ok tt /\
  exists out', st_output (fst (build h osenv mode (SourceDir p name (Some e')) st)) = Some out' /\ output_lines out out'.
Proof.
  intros Bl S. unfold build, node_new. cbn [sd_path sd_name sd_ent]. destruct e as [|l|]; try discriminate. inversion S as [|? ? l' F|]; subst.
  pose proof (create_lines h (st_plugins st) Bl (EDir l) (EDir l') p name S) as C. destruct (create_from h _ true p name (EDir l)) as [n| | |]; try discriminate. destruct (C n eq_refl) as (n' & -> & N).
  set (meta := cf_meta (st_config st)). set (vars := build_vars osenv mode).
  assert (Pp := preprocess_goes n (Processor h (Some n) (Some (base_frame vars)) meta) (Processor h (Some n') (Some (base_frame vars)) meta) n'
    ltac:(repeat split; auto) N).
  destruct (preprocess _ n) as [i| | |]; try discriminate. destruct (Pp i eq_refl) as (i' & -> & _). pose proof (tree_goes h meta vars n n' N) as T.
  destruct (build_tree h meta vars n) as [[a o]| | |]; try discriminate. destruct (T (a, o) eq_refl) as ([a' o'] & -> & O). cbn. intros _ [= <-]. split; auto. exists o'. now split.
Qed.
(** Being the same up to line ends is symmetric. *)
Lemma sources_sym h ps e : forall name e', sources_lines h ps name e e' -> sources_lines h ps name e' e.
Proof.
  induction e as [b| |l IH] using ent_ind2; intros name e' S; inversion S as [? ? b' F|? ? l' F|]; subst; constructor.
  - destruct F as [b|b b' t t' U U' L Fh Fj Fp]; [constructor|]. eapply fl_text; eauto; [now apply sb_sym| |intros X; symmetry; auto]. intros X. apply (one_line_lines _ t); auto.
  - clear S. induction F as [|x x' l l' [N Q] F IHl]; constructor; inversion IH; subst; auto. split; auto. rewrite N. auto.
Qed.

(** ** Plugins that do not mind *)
Lemma js_run_goes p : forall s s', scope_lines s s' -> goes (fun x x' => scope_lines (fst x) (fst x') /\ snd x' = snd x) (Js.js_run p s) (Js.js_run p s').
Proof.
  induction p as [r|k f IH|k v p IH]; intros s s' S; cbn [Js.js_run].
  - apply goes_ok. now split.
  - rewrite (read_lines k (sc_stack s) (sc_stack s')); [|apply S]. now apply IH.
  - destruct (Js.js_to_json v) as [[y|]| | |]; cbn [bind]; try never; [|now apply IH]. destruct S as (I & K & S). destruct K as [|f f' st st' (N & V & O) K]; [never|].
    apply IH. repeat split; auto. cbn. constructor; auto. repeat split; cbn; auto. now rewrite V.
Qed.
Lemma js_blind name code r f : pp_parse (Js.js_plugin_parser name code) r = inr f -> blind_fn f.
Proof.
  intros E l l' s s' s1 S. injection E as <-. cbn [pf_exec]. revert s1. change (goes scope_lines (Js.js_exec code (rf_pos r) l s) (Js.js_exec code (rf_pos r) l' s')). unfold Js.js_exec.
  apply (goes_bind eq).
  - intros vs V. exists vs. split; auto. apply map_res_ok in V. apply map_res_ok. induction V as [|a v args vs A V IH]; constructor; [|exact IH].
    destruct a as [n| | |]; cbn in *; try discriminate; auto. rewrite (read_lines n (sc_stack s) (sc_stack s')); [|apply S]. destruct (get_variable n _); [exact A|discriminate].
  - intros vs vs' <-. apply (goes_bind (fun x x' => scope_lines (fst x) (fst x') /\ snd x' = snd x)); [now apply js_run_goes|]. intros [s2 o] [s2' o'] [Q X]. cbn [fst snd] in *. subst o'.
    destruct o as [t|]; [|now apply goes_ok]. pose proof (output_goes (enc t) (enc t) s2 s2' (sb_refl _) Q) as G.
    destruct (output (enc t) s2) as [x| | |]; try never. destruct (G x eq_refl) as (x' & -> & X). now apply goes_ok.
Qed.
Lemma ours_blind o ps : (forall pl, In pl ps -> In pl [Shipped.imgopt o; Shipped.demo] \/
  (pl_parsers pl = [] /\ forall f, In f (pl_fns pl) -> exists name code, f = Js.js_plugin_parser name code)) -> line_blind ps.
Proof.
  intros H pl I. destruct (H pl I) as [[<-|[<-|[]]]|[N F]]; split; cbn.
  - intros f raw g [].
  - intros np b p c [<-|[]] E. cbn in E. injection E as <-. intros e e' x _ X. cbn in *. exists x. split; auto. split; auto. destruct (po_contents x); [apply sb_refl|exact Logic.I].
  - intros f raw g [<-|[]]. cbn. destruct (rf_pos raw), (rf_named raw); try discriminate. intros E l l' s s' s1 S. injection E as <-. cbn [pf_exec Shipped.demo_fn].
    pose proof (output_goes (enc (lit "<p>This was written by the demo function!</p>")) _ s s' (sb_refl _) S) as G.
    destruct (output _ s) as [x| | |]; try discriminate. intros [= <-]. destruct (G x eq_refl) as (x' & -> & X). exists x'. now split.
  - intros np b p c [].
  - intros f raw g J. destruct (F f J) as (name & code & ->). exact (js_blind name code raw g).
  - rewrite N. intros np b p c [].
Qed.

(** ** Posts with other line ends *)
Section Same.
  Variables w w' : world.
  Hypothesis Hh : w_host w' = w_host w.
  Hypothesis Ht : w_toks w' = w_toks w.
  Hypothesis Hf : forall f st, for_values w' f st = for_values w f st.
  Hypothesis Hm : forall v file s, exec_import w' v file s = exec_import w v file s.
  Lemma next_same s : next_token w' s = next_token w s.
  Proof. unfold next_token. now rewrite Ht. Qed.
  Lemma current_same s k k' : (forall l, k' l = k l) -> with_current w' s k' = with_current w s k.
  Proof. intros K. unfold with_current, current. rewrite Ht. destruct (sc_idx s); auto. destruct (nth_error _ _); auto. Qed.
  Lemma block_same ex ex' ht eof k : (forall t s, ex' t s = ex t s) -> forall s, run_block ex' w' ht eof k s = run_block ex w ht eof k s.
  Proof.
    intros X. induction k as [|k IH]; intros s; cbn [run_block]; auto. destruct (Nat.leb _ _); auto. rewrite next_same. destruct (next_token w s) as [[t s1]|]; auto. rewrite X. destruct (ex t s1); cbn [bind]; auto.
  Qed.
  Lemma cond_same ex ex' ht eof k : (forall t s, ex' t s = ex t s) -> forall c s, run_cond ex' w' ht eof k c s = run_cond ex w ht eof k c s.
  Proof.
    intros X. induction k as [|k IH]; intros c s; cbn [run_cond]; auto. destruct (Nat.leb _ _); auto. rewrite next_same. destruct (next_token w s) as [[t s1]|]; auto.
    destruct (token_fn_name t) as [nm| | |]; cbn [bind]; auto. destruct (c || _); auto. rewrite X. destruct (ex t s1); cbn [bind]; auto.
  Qed.
  Lemma loop_same ex ex' name wp eof vs : (forall t s, ex' t s = ex t s) -> forall s, for_loop ex' w' name wp eof vs s = for_loop ex w name wp eof vs s.
  Proof.
    intros X. induction vs as [|v vs IH]; intros s; cbn [for_loop]; auto. rewrite Ht, (block_same ex ex') by auto. destruct (run_block _ _ _ _ _ _); cbn [bind]; auto.
  Qed.
  Lemma exec_same k : forall t s, exec k w' t s = exec k w t s.
  Proof.
    induction k as [|k IH]; intros t s; cbn [exec]; auto. destruct (t_inner t) as [r|f|v]; auto. unfold exec_fn. rewrite Hh, Ht.
    destruct f as [label custom|v fmt| |label custom|v n|ff|v|v file|label|v|c a b|p]; auto; apply current_same; intros l; auto.
    - rewrite Hf. destruct (for_values w ff _); cbn [map_err bind]; auto. now apply loop_same.
    - now apply cond_same.
    - now rewrite Hm.
    - destruct (eval_input a _); cbn [ok_or bind]; auto. destruct (eval_input b _); cbn [ok_or bind]; auto. now apply cond_same.
  Qed.
  Lemma run_same s : Interp.run w' s = Interp.run w s.
  Proof.
    unfold Interp.run. rewrite Ht. generalize (S (length (w_toks w))) at 1 3. intros k. generalize (S (length (w_toks w))). intros m. revert s.
    induction k as [|k IH]; intros s; cbn [run_all]; auto. rewrite next_same. destruct (next_token w s) as [[t s1]|]; auto. rewrite exec_same. destruct (exec m w t s1); cbn [bind]; auto.
  Qed.
End Same.
Inductive twin : node -> node -> Prop :=
| tw_file name b pc meta src : twin (NFile name b pc meta src) (NFile name b pc meta src)
| tw_post name b b' m meta src : is_template_name name = false -> twin (NFile name b (PMarkdown m) meta src) (NFile name b' (PMarkdown m) meta src)
| tw_dir name ch ch' src : Forall2 twin ch ch' -> twin (NDir name ch src) (NDir name ch' src).
Lemma twin_name n n' : twin n n' -> n_name n' = n_name n.
Proof. now intros []. Qed.
Lemma twin_parsed n n' : twin n n' -> n_parsed n' = n_parsed n.
Proof. now intros []. Qed.
Lemma twin_child c ch ch' : Forall2 twin ch ch' -> opt_lines twin (find_child c ch) (find_child c ch').
Proof. intros H. unfold find_child. induction H as [|n n' ch ch' N H IH]; cbn [find]; [exact I|]. rewrite (twin_name _ _ N). now destruct (text_eqb _ _). Qed.
Lemma twin_walk p : forall n n', twin n n' -> opt_lines twin (walk n p) (walk n' p).
Proof.
  induction p as [|c p IH]; intros n n' N; cbn [walk]; auto. destruct N as [| |name ch ch' src H]; try exact I. cbn [n_children].
  pose proof (twin_child c _ _ H) as L. destruct (find_child c ch), (find_child c ch'); cbn in L; try contradiction; auto.
Qed.
Lemma twin_values {E} ch ch' : Forall2 twin ch ch' -> @md_values E ch' = md_values ch.
Proof. intros H. induction H as [|n n' ch ch' N H IH]; cbn [md_values]; auto. rewrite (twin_parsed _ _ N), IH. reflexivity. Qed.
Lemma twin_run h n n' toks s : twin n n' -> Interp.run (World h n' toks) s = Interp.run (World h n toks) s.
Proof.
  intros N. assert (A : forall p, opt_lines twin (get_at_path n p) (get_at_path n' p)) by (intros p; unfold get_at_path; destruct (components p); [now apply twin_walk|exact I]).
  apply run_same; auto.
  - intros f st. unfold for_values. cbn [w_input]. specialize (A (ff_src f)). destruct (ff_type f); auto;
    (destruct (get_at_path n _) as [m|], (get_at_path n' _) as [m'|]; cbn in A; try contradiction; auto; destruct A; auto). now apply twin_values.
  - intros v file s0. unfold exec_import. cbn [w_input]. specialize (A file). destruct (get_at_path n _) as [m|], (get_at_path n' _) as [m'|]; cbn in A; try contradiction; auto; destruct A; auto.
Qed.
Definition twin_pr (pr pr' : processor) : Prop := pr_host pr' = pr_host pr /\ pr_meta pr' = pr_meta pr /\ pr_base pr' = pr_base pr /\ opt_lines twin (pr_input pr) (pr_input pr').
Lemma twin_phase pr pr' toks st secs : twin_pr pr pr' -> phase pr' toks st secs = phase pr toks st secs.
Proof. intros (H & _ & _ & N). unfold phase. rewrite H. destruct (pr_input pr), (pr_input pr'); cbn in N; try contradiction; auto. now apply twin_run. Qed.
Lemma twin_phases pr pr' src toks root f b : twin_pr pr pr' -> two_phases pr' src toks root f b = two_phases pr src toks root f b.
Proof.
  intros P. unfold two_phases. rewrite (twin_phase pr pr') by auto. destruct (phase pr toks _ _) as [s| | |]; cbn [bind]; auto. destruct (sc_stack s) as [|x r]; auto. destruct (is_base x); auto.
  now rewrite (twin_phase pr pr').
Qed.
Lemma twin_process pr pr' e name b b' pc src : twin_pr pr pr' -> b' = b \/ (is_template_name name = false /\ exists m, pc = PMarkdown m) -> process_file pr' e name b' pc src = process_file pr e name b pc src.
Proof.
  intros P B. assert (Q : forall toks, process_html pr' e src toks = process_html pr e src toks).
  { intros toks. unfold process_html. destruct (ev_root e); cbn [ok_or bind]; auto. rewrite (proj1 (proj2 (proj2 P))). destruct (pr_base pr); auto. now rewrite (twin_phases pr pr'). }
  assert (Q2 : forall m, process_markdown pr' e src name m = process_markdown pr e src name m).
  { intros m. unfold process_markdown. destruct (ev_root e); cbn [ok_or bind]; auto. destruct (ev_md e); cbn [ok_or bind]; auto. rewrite (proj1 (proj2 (proj2 P))). destruct (pr_base pr); auto.
    destruct (md_to_value m); cbn [bind]; auto. now rewrite (twin_phases pr pr'). }
  unfold process_file. rewrite (proj1 (proj2 P)). destruct B as [->|(T & m & ->)].
  - destruct (is_template_name name); auto. destruct pc; auto; [now rewrite Q|now rewrite Q2].
  - rewrite T, Q2. unfold process_markdown. destruct (ev_root e); cbn [ok_or bind map_err]; auto. destruct (ev_md e); cbn [ok_or bind map_err]; auto. destruct (pr_base pr); auto.
    destruct (md_to_value m); cbn [bind map_err]; auto. destruct (two_phases _ _ _ _ _ _); cbn [bind map_err]; auto. destruct (strip_suffix _ _); auto.
Qed.
Lemma twin_update ch ch' : Forall2 twin ch ch' -> forall e, env_update e ch' = env_update e ch.
Proof.
  intros H. unfold env_update. induction H as [|n n' ch ch' N H IH]; intros e; cbn [fold_left]; auto. rewrite IH. f_equal. unfold env_child. now rewrite (twin_name _ _ N), (twin_parsed _ _ N).
Qed.
Lemma map_same {E B C} (R : B -> B -> Prop) (f f' : B -> res E C) l l' : Forall2 R l l' -> (forall x x', In x l -> R x x' -> f' x' = f x) -> map_res f' l' = map_res f l.
Proof.
  intros H. induction H as [|x x' l l' X H IH]; intros K; cbn [map_res]; auto. rewrite (K x x') by (cbn; auto). destruct (f x); cbn [bind]; auto. fold (map_res f) (map_res f'). rewrite IH; auto. intros; apply K; cbn; auto.
Qed.
Lemma twin_build n : forall pr pr' e n', twin_pr pr pr' -> twin n n' -> build_node pr' e n' = build_node pr e n.
Proof.
  induction n as [name b pc meta src|name ch src IH] using node_ind2; intros pr pr' e n' P N; inversion N as [|? ? b' m ? ? T|? ? ch' ? H]; subst; cbn [build_node].
  - apply twin_process; auto.
  - apply twin_process; auto. right. split; auto. now exists m.
  - rewrite (twin_update _ _ H). erewrite (map_same twin); [reflexivity|exact H|]. intros x x' I X. rewrite Forall_forall in IH. now apply IH.
Qed.
Definition both_twin {E} (r r' : res E node) : Prop := match r, r' with Ok n, Ok n' => twin n n' | Err e, Err e' => e' = e | Panic p, Panic p' => p' = p | OutOfFuel, OutOfFuel => True | _, _ => False end.
Definition all_twin {E} (r r' : res E (list node)) : Prop := match r, r' with Ok n, Ok n' => Forall2 twin n n' | Err e, Err e' => e' = e | Panic p, Panic p' => p' = p | OutOfFuel, OutOfFuel => True | _, _ => False end.
Lemma map_twin {E B} (R : B -> B -> Prop) (f f' : B -> res E node) l l' : Forall2 R l l' -> (forall x x', In x l -> R x x' -> both_twin (f x) (f' x')) -> all_twin (map_res f l) (map_res f' l').
Proof.
  intros H. induction H as [|x x' l l' X H IH]; intros K; cbn [map_res]; [constructor|]. pose proof (K x x' (or_introl eq_refl) X) as Q. destruct (f x), (f' x'); cbn in Q; try contradiction; cbn [bind]; auto.
  fold (map_res f) (map_res f'). assert (J := IH (fun y y' I => K y y' (or_intror I))). destruct (map_res f l), (map_res f' l'); cbn in J |- *; try contradiction; auto.
Qed.
Lemma twin_preprocess n : forall pr pr' n', twin_pr pr pr' -> twin n n' -> both_twin (preprocess pr n) (preprocess pr' n').
Proof.
  induction n as [name b pc meta src|name ch src IH] using node_ind2; intros pr pr' n' P N.
  - assert (Q : forall m, preprocess_markdown pr' src m = preprocess_markdown pr src m).
    { intros m. unfold preprocess_markdown. rewrite (proj1 (proj2 (proj2 P))), (proj1 P). destruct (pr_base pr); auto. now rewrite (twin_phase pr pr'). }
    inversion N as [|? ? b' m ? ? T|]; subst; cbn [preprocess].
    + destruct pc as [t|m|v|c| |]; try constructor. rewrite Q. destruct (preprocess_markdown pr src m); cbn; auto. constructor.
    + rewrite Q. destruct (preprocess_markdown pr src m); cbn; auto. now constructor.
  - inversion N as [| |? ? ch' ? H]; subst; cbn [preprocess].
    assert (J : all_twin (map_res (preprocess pr) ch) (map_res (preprocess pr') ch')) by (eapply map_twin; [exact H|]; intros x x' I X; rewrite Forall_forall in IH; now apply IH).
    destruct (map_res _ ch), (map_res _ ch'); cbn in J |- *; try contradiction; auto. now constructor.
Qed.
Lemma post_template name : has_ext name (lit "md") -> is_template_name name = false.
Proof.
  intros X. apply extension_spec in X. unfold is_template_name. destruct (text_eqb name (lit "root.html")) eqn:E; [apply text_eqb_eq in E; subst; discriminate X|].
  destruct (text_eqb name (lit "md.html")) eqn:E2; auto. apply text_eqb_eq in E2. subst. discriminate X.
Qed.
Lemma twin_create h ps e : forall e' p name, posts_lines name e e' -> both_twin (create_from h ps true p name e) (create_from h ps true p name e').
Proof.
  induction e as [b| |l IH] using ent_ind2; intros e' p name S; inversion S as [? ? b' F|? ? l' F|]; subst; cbn [create_from].
  - assert (R : forall r : res error node, (forall n, r = Ok n -> twin n n) -> both_twin r r) by (intros [n|x|q|] H; cbn; auto).
    destruct F as [<-|(X & t & t' & U & U' & L)].
    + apply R. intros n C. destruct (create_file_kind _ _ _ _ _ _ C) as (pc & -> & _). constructor.
    + assert (T := post_template _ X). apply extension_spec in X. apply decoding in U. apply decoding in U'. unfold create_from_file. rewrite X, U, U'. change (text_eqb (lit "md") (lit "html")) with false.
      change (text_eqb (lit "md") (lit "md")) with true. cbv iota. cbn [ok_or bind]. rewrite (markdown_lines _ _ _ _ _ L). destruct (parse_markdown _ _ p t); cbn; auto. now constructor.
  - reflexivity.
  - assert (J : all_twin (map_res (fun ne => create_from h ps true (p ++ [fst ne]) (fst ne) (snd ne)) l) (map_res (fun ne => create_from h ps true (p ++ [fst ne]) (fst ne) (snd ne)) l')).
    { eapply map_twin; [exact F|]. intros x x' I [N Q]. rewrite N. rewrite Forall_forall in IH. now apply IH. }
    destruct (map_res _ l), (map_res _ l'); cbn in J |- *; try contradiction; auto. now constructor.
Qed.
Lemma posts_build h osenv mode p name e e' st : posts_lines name e e' ->
  snd (build h osenv mode (SourceDir p name (Some e')) st) = snd (build h osenv mode (SourceDir p name (Some e)) st) /\
  st_output (fst (build h osenv mode (SourceDir p name (Some e')) st)) = st_output (fst (build h osenv mode (SourceDir p name (Some e)) st)).
Proof.
  intros S. unfold build. cbn [sd_path sd_name sd_ent].
  assert (C : both_twin (node_new h (st_plugins st) true p name (Some e)) (node_new h (st_plugins st) true p name (Some e'))).
  { unfold node_new. pose proof (twin_create h (st_plugins st) e e' p name S) as C. destruct S; auto; reflexivity. }
  destruct (node_new _ _ _ _ _ (Some e)) as [n|x|q|], (node_new _ _ _ _ _ (Some e')) as [n'|x'|q'|]; cbn in C; try contradiction; subst; auto.
  set (meta := cf_meta (st_config st)). set (vars := build_vars osenv mode).
  assert (P := twin_preprocess n (Processor h (Some n) (Some (base_frame vars)) meta) (Processor h (Some n') (Some (base_frame vars)) meta) n' ltac:(repeat split; auto) C).
  unfold build_tree. destruct (preprocess _ n) as [i|x|q|], (preprocess _ n') as [i'|x'|q'|]; cbn in P; try contradiction; subst; auto. cbn [bind].
  destruct P as [nm b pc mt src|nm b b' m mt src T|nm ch ch' src H]; cbn [n_children]; auto. rewrite (twin_update _ _ H).
  rewrite (twin_build (NDir nm ch src) (Processor h (Some (NDir nm ch src)) (Some (base_frame vars)) meta) _ _ (NDir nm ch' src)); [|repeat split; auto; cbn; now constructor|now constructor].
  destruct (build_node _ _ _); cbn; auto.
Qed.
Lemma built_some h osenv mode d st : snd (build h osenv mode d st) = Ok tt -> exists out, st_output (fst (build h osenv mode d st)) = Some out.
Proof.
  unfold build. destruct (node_new _ _ _ _ _ _); try discriminate. destruct (preprocess _ _); try discriminate. destruct (build_tree _ _ _ _) as [[i out]| | |]; try discriminate. intros _. now exists out.
Qed.
Lemma builds_iff h osenv mode p name e e' st : line_blind (st_plugins st) -> sources_lines h (st_plugins st) name e e' ->
  (snd (build h osenv mode (SourceDir p name (Some e)) st) = Ok tt <-> snd (build h osenv mode (SourceDir p name (Some e')) st) = Ok tt).
Proof.
  intros Bl S. split; intros B; destruct (built_some _ _ _ _ _ B) as (out & O).
  - now destruct (build_goes h osenv mode p name e e' st out Bl S B O).
  - now destruct (build_goes h osenv mode p name e' e st out Bl (sources_sym _ _ _ _ _ S) B O).
Qed.
