(** Utf8Run.v -- processing keeps everything valid UTF-8 (C32). *)

From Coq Require Import String List NArith ZArith Bool Lia Sorting.Permutation.
From Verif Require Import Text TextFacts Utf8 Json Base Syntax Parse Tree Interp Build SpecScope SpecPage SpecLoop SpecUtf8
  Utf8Facts InterpFacts SelectFacts.
Import ListNotations.

Lemma scalars_nil : scalars [].
Proof. constructor. Qed.
Lemma utf8_enc t : scalars t -> utf8 (enc t).
Proof. intros H. exists t. now apply encoding. Qed.
Lemma utf8_nil : utf8 [].
Proof. exists []. constructor. Qed.
Lemma utf8_app a b : utf8 a -> utf8 b -> utf8 (a ++ b).
Proof.
  intros (t & H) (u & K). exists (t ++ u). induction H as [|x c y t Hc Ht IH]; [exact K|].
  rewrite <- app_assoc. now constructor.
Qed.
Lemma utf8_from b : utf8 b <-> exists t, from_utf8 b = Some t.
Proof. split; intros (t & H); exists t; now apply decoding. Qed.

Lemma assoc_in {A} k (l : list (text * A)) x : assoc k l = Some x -> exists k', In (k', x) l.
Proof.
  induction l as [|[k' y] l IH]; cbn; [discriminate|]. destruct (text_eqb k' k).
  - intros E; injection E as ->. exists k'. now left.
  - intros E. destruct (IH E) as [k2 I]. exists k2. now right.
Qed.
Lemma nth_N_in {A} (l : list A) : forall n x, nth_N n l = Some x -> In x l.
Proof.
  induction l as [|a l IH]; intros n x E; cbn in E; [discriminate|].
  destruct (n =? 0)%N; [injection E as ->; now left|]. right. now apply (IH (n - 1)%N).
Qed.
Lemma assoc_forall {A} (P : A -> Prop) k (l : list (text * A)) x : Forall (fun kv => P (snd kv)) l -> assoc k l = Some x -> P x.
Proof. intros F E. destruct (assoc_in _ _ _ E) as [k' I]. rewrite Forall_forall in F. exact (F (k', x) I). Qed.

Lemma scalar_step k v x : scalar_value v -> get_step k v = Some x -> scalar_value x.
Proof.
  intros H. unfold get_step, get_key, get_idx. destruct v as [| | | |l|l]; try (destruct (parse_usize k); discriminate).
  - inversion H as [| | | |? F|]; subst. destruct (parse_usize k) as [i|]; [|discriminate]. intros E. apply nth_N_in in E.
    rewrite Forall_forall in F. now apply F.
  - inversion H as [| | | | |? F]; subst. destruct (assoc k l) as [y|] eqn:A; [|destruct (parse_usize k); discriminate].
    intros E; injection E as <-. exact (assoc_forall scalar_value k l y F A).
Qed.
Lemma scalar_get p : forall v, scalar_value v -> scalar_value (get_value p v).
Proof.
  induction p as [|k p IH]; intros v H; cbn [get_value]; [exact H|].
  destruct (get_step k v) as [x|] eqn:E; [|constructor]. apply IH. now apply (scalar_step k v).
Qed.
Lemma scalar_lookup k st v : Forall scalar_frame st -> lookup_frames k st = Some v -> scalar_value v.
Proof.
  intros H. induction H as [|f st [Hf _] Hs IH]; cbn; [discriminate|].
  destruct (assoc k (fr_vars f)) as [x|] eqn:A; [|exact IH]. intros E; injection E as ->. exact (assoc_forall scalar_value _ _ _ Hf A).
Qed.
Lemma scalar_variable name st v : Forall scalar_frame st -> get_variable name st = Some v -> scalar_value v.
Proof.
  intros H. unfold get_variable. destruct (split_char c_dot name) as [h p]. destruct (lookup_frames h st) as [x|] eqn:L; [|discriminate].
  intros E; injection E as <-. apply scalar_get. exact (scalar_lookup _ _ _ H L).
Qed.
Lemma scalar_var_string v st t : Forall scalar_frame st -> var_string v st = Ok t -> scalars t.
Proof.
  intros H. unfold var_string. destruct (get_variable v st) as [x|] eqn:G; [|discriminate].
  destruct x; try discriminate. intros E; injection E as <-. apply scalar_variable in G; [|exact H]. now inversion G.
Qed.
Lemma scalar_string_var v s t : Forall scalar_frame (sc_stack s) -> string_var v s = Ok t -> scalars t.
Proof.
  intros H. unfold string_var. destruct (get_variable v (sc_stack s)) as [x|] eqn:G; [|discriminate].
  destruct x; try discriminate. intros E; injection E as <-. apply scalar_variable in G; [|exact H]. now inversion G.
Qed.

Lemma scalars_small t : Forall (fun c => (c < 128)%N) t -> scalars t.
Proof. apply Forall_impl. intros c H. unfold scalar. lia. Qed.
Lemma show_N_small n : Forall (fun c => (c < 128)%N) (show_N n).
Proof.
  unfold show_N. assert (G : forall f n acc, Forall (fun c => (c < 128)%N) acc -> Forall (fun c => (c < 128)%N) (dec_aux f n acc)).
  { induction f as [|f IH]; intros m acc H; cbn [dec_aux]; [exact H|].
    assert (K : Forall (fun c => (c < 128)%N) ((48 + m mod 10)%N :: acc)) by (constructor; [assert (m mod 10 < 10)%N by (now apply N.mod_lt); lia|exact H]).
    destruct (m <? 10)%N; [exact K|now apply IH]. }
  apply G. constructor.
Qed.
Lemma excerpt_loop_scalars len t : scalars t -> forall tag n, scalars (fst (excerpt_loop len tag n t)).
Proof.
  intros H. induction H as [|c t Hc Ht IH]; intros tag n; cbn [excerpt_loop]; destruct (len <=? n)%N; try constructor.
  destruct (c =? c_lt)%N; [specialize (IH true n); now destruct (excerpt_loop len true n t)|].
  destruct (c =? c_gt)%N; [specialize (IH false n); now destruct (excerpt_loop len false n t)|].
  destruct tag; [specialize (IH true n); now destruct (excerpt_loop len true n t)|].
  specialize (IH false (n + len1 c)%N). destruct (excerpt_loop len false (n + len1 c) t). now constructor.
Qed.
Lemma excerpt_scalars n t : scalars t -> scalars (excerpt n t).
Proof.
  intros H. unfold excerpt. assert (A := excerpt_loop_scalars n t H false 0%N). destruct (excerpt_loop n false 0 t) as [r k]. cbn in A.
  destruct (k <? byte_len t)%N; [|exact A]. apply Forall_app. split; [exact A|]. now repeat constructor.
Qed.

Lemma add_scalar b f : utf8 b -> scalar_frame f -> scalar_frame (add_out b f).
Proof. intros H [V O]. split; [exact V|]. now apply utf8_app. Qed.
Lemma output_scalar b s s' : utf8 b -> scalar_scope s -> output b s = Ok s' -> scalar_scope s'.
Proof.
  intros H [S C]. unfold output. destruct (sc_stack s) as [|f r]; [discriminate|]. intros E; injection E as <-.
  inversion S; subst. split; [|exact C]. constructor; [now apply add_scalar|assumption].
Qed.
Lemma emit_scalar b s s' : utf8 b -> scalar_scope s -> emit b s = Ok s' -> scalar_scope s'.
Proof.
  intros H [S C]. unfold emit. destruct (sc_stack s) as [|f r]; [discriminate|]. intros E; injection E as <-.
  inversion S; subst. split; [|exact C]. constructor; [now apply add_scalar|assumption].
Qed.
Lemma push_scalar f s : scalar_frame f -> scalar_scope s -> scalar_scope (push_frame f s).
Proof. intros H [S C]. split; [now constructor|exact C]. Qed.
Lemma new_scalar name : scalar_frame (new_frame name).
Proof. split; [constructor|exact utf8_nil]. Qed.

Lemma select_in f vs v : In v (select f vs) -> In v vs.
Proof.
  destruct (select_visits f vs) as (us & us' & S & D0 & D1 & dr & kept & rest & E & -> & _).
  intros I. assert (I' : In v us') by (rewrite E; apply in_or_app; right; apply in_or_app; now left).
  assert (I2 : In v us). { destruct (ff_desc f); [rewrite (D1 eq_refl) in I'; now apply in_rev|now rewrite (D0 eq_refl) in I']. }
  destruct (ff_sort f) as [name|]; [|now subst]. destruct S as (key & _ & P & _). now apply (Permutation_in v (Permutation_sym P)).
Qed.

Lemma set_key_scalar k x l : scalar_value x -> Forall (fun kv => scalar_value (snd kv)) l ->
  Forall (fun kv : text * value => scalar_value (snd kv)) (set_key k x l).
Proof.
  intros H F. induction F as [|[k' y] l F1 F2 IH]; cbn; [now constructor|].
  destruct (text_eqb k' k); now constructor.
Qed.
Lemma md_value_scalar {E} m v : scalar_markdown m -> md_to_value (E := E) m = Ok v -> scalar_value v.
Proof.
  intros (F & S & H). unfold md_to_value. destruct (md_html m) as [t|]; [|discriminate]. intros K; injection K as <-.
  constructor. apply set_key_scalar; [now constructor|]. apply set_key_scalar; [now constructor|].
  unfold front_value. apply Forall_map. revert F. apply Forall_impl. intros kv A. now constructor.
Qed.

Section Utf8.
  Variable w : world.
  Hypothesis Hhost : scalar_host (w_host w).
  Hypothesis Hsite : scalar_site (w_input w).
  Hypothesis Htoks : Forall scalar_token (w_toks w).

  Lemma md_values_scalar {E} l vs : (forall n, In n l -> inside n (w_input w)) -> md_values (E := E) l = Ok vs -> Forall scalar_value vs.
  Proof.
    revert vs. induction l as [|n l IH]; intros vs I; cbn [md_values]; [intros K; injection K as <-; constructor|].
    assert (I' : forall m, In m l -> inside m (w_input w)) by (intros m Hm; apply I; now right).
    destruct n as [name b p meta src|name ch src]; cbn [n_parsed]; [|now apply IH].
    destruct p; try (now apply IH). destruct (md_to_value m) as [v|e|q|] eqn:V; cbn [bind]; try discriminate.
    destruct (md_values l) as [r|e|q|]; cbn [bind]; try discriminate. intros K; injection K as <-.
    constructor; [|now apply IH]. apply (@md_value_scalar E m v); [|exact V].
    destruct Hsite as [_ H]. apply (H name b m meta src). apply I. now left.
  Qed.
  Lemma for_values_scalar f st vs : Forall scalar_frame st -> for_values w f st = Ok vs -> Forall scalar_value vs.
  Proof.
    intros H. unfold for_values. destruct (ff_type f).
    - destruct (get_at_path _ _) as [[name b p meta src|name ch src]|] eqn:G; try discriminate.
      apply md_values_scalar. intros n Hn. apply get_at_path_inside in G.
      apply (inside_trans _ (NDir name ch src)); [|exact G]. apply (in_child _ _ _ _ n Hn), in_here.
    - destruct (get_at_path _ _) as [[name b p meta src|name ch src]|] eqn:G; try discriminate.
      destruct p; try discriminate. destruct v; try discriminate. intros E; injection E as <-.
      apply get_at_path_inside in G. destruct Hsite as [HJ _]. apply HJ in G. now inversion G.
    - destruct (get_variable _ _) as [v|] eqn:G; [|discriminate]. apply scalar_variable in G; [|exact H].
      destruct v; try discriminate. intros E; injection E as <-. now inversion G.
  Qed.

  Definition keeps (ex : ltoken -> scope -> xres scope) : Prop :=
    forall t s s', scalar_token t -> scalar_scope s -> ex t s = Ok s' -> scalar_scope s'.
  Lemma next_scalar s t s1 : scalar_scope s -> next_token w s = Some (t, s1) -> scalar_token t /\ scalar_scope s1.
  Proof.
    unfold next_token. destruct (nth_error _ _) as [x|] eqn:N; [|discriminate]. intros H E; injection E as <- <-.
    split; [|exact H]. rewrite Forall_forall in Htoks. apply Htoks. now apply nth_error_In in N.
  Qed.
  Lemma run_block_scalar ex h eof k : keeps ex -> forall s s', scalar_scope s -> run_block ex w h eof k s = Ok s' -> scalar_scope s'.
  Proof.
    intros K. induction k as [|k IH]; intros s s' H; cbn [run_block]; destruct (Nat.leb _ h).
    - intros E; injection E as <-; exact H.
    - discriminate.
    - intros E; injection E as <-; exact H.
    - destruct (next_token w s) as [[t s1]|] eqn:N; [|discriminate]. destruct (next_scalar _ _ _ H N) as [Ht H1].
      destruct (ex t s1) as [s2|e|q|] eqn:X; cbn [bind]; try discriminate. apply IH. exact (K _ _ _ Ht H1 X).
  Qed.
  Lemma run_cond_scalar ex h eof k : keeps ex -> forall c s s', scalar_scope s -> run_cond ex w h eof k c s = Ok s' -> scalar_scope s'.
  Proof.
    intros K. induction k as [|k IH]; intros c s s' H; cbn [run_cond]; destruct (Nat.leb _ h).
    - intros E; injection E as <-; exact H.
    - discriminate.
    - intros E; injection E as <-; exact H.
    - destruct (next_token w s) as [[t s1]|] eqn:N; [|discriminate]. destruct (next_scalar _ _ _ H N) as [Ht H1].
      destruct (token_fn_name t) as [nm|e|q|]; cbn [bind]; try discriminate.
      match goal with |- (if ?b then _ else _) = _ -> _ => destruct b end; [|now apply IH].
      destruct (ex t s1) as [s2|e|q|] eqn:X; cbn [bind]; try discriminate. apply IH. exact (K _ _ _ Ht H1 X).
  Qed.
  Lemma for_loop_scalar ex name wp eof vs : keeps ex -> Forall scalar_value vs ->
    forall s s', scalar_scope s -> for_loop ex w name wp eof vs s = Ok s' -> scalar_scope s'.
  Proof.
    intros K F. induction F as [|v vs Hv Hvs IH]; intros s s' H; cbn [for_loop]; [intros E; injection E as <-; exact H|].
    match goal with |- bind (run_block ex w ?h ?e ?k ?s2) _ = _ -> _ => destruct (run_block ex w h e k s2) as [s3|e'|q|] eqn:B end;
      cbn [bind]; try discriminate.
    apply IH. eapply run_block_scalar; [exact K| |exact B]. apply push_scalar; [|exact H].
    split; [|exact utf8_nil]. cbn. constructor; [exact Hv|constructor].
  Qed.

  Lemma exec_scalar n : keeps (exec n w).
  Proof.
    induction n as [|n IH]; intros t s s' Ht H; [discriminate|]. cbn [exec]. unfold scalar_token in Ht.
    destruct (t_inner t) as [r|f|v].
    - apply emit_scalar; [now apply utf8_enc|exact H].
    - assert (HS : Forall scalar_frame (sc_stack s)) by apply H.
      unfold exec_fn, with_current. destruct f as [label custom|v fmt| |label custom|v len|f|v|v file|label|v|c a b|p];
        try (destruct (current w s) as [ct|]; [|discriminate]).
      + intros E; injection E as <-. apply push_scalar; [apply new_scalar|exact H].
      + unfold exec_date. destruct (h_date (w_host w)) as [d|] eqn:D; [|discriminate].
        destruct (string_var v s) as [x|e|q|] eqn:X; cbn [bind map_err]; try discriminate.
        destruct (d x fmt) as [y|] eqn:Y; [|discriminate]. destruct (output (enc y) s) as [s2|e|q|] eqn:O; cbn [map_err]; try discriminate.
        intros E; injection E as <-. apply (output_scalar _ _ _ ltac:(apply utf8_enc; exact (proj1 (proj2 Hhost) d x fmt y D (scalar_string_var _ _ _ HS X) Y)) H O).
      + unfold exec_else. destruct (sc_stack s) as [|f r]; [discriminate|]. destruct (starts_with _ _); [|discriminate].
        cbn [map_err]. intros E; injection E as <-; exact H.
      + unfold exec_end. destruct (sc_stack s) as [|f r] eqn:St; [discriminate|]. inversion HS as [|? ? Hf Hr]; subst.
        assert (H1 : scalar_scope (set_stack r s)) by (split; [exact Hr|apply H]).
        destruct custom.
        * destruct (text_eqb _ _); [|discriminate]. destruct (output _ _) as [s2|e|q|] eqn:O; cbn [bind map_err]; try discriminate.
          intros E; injection E as <-. apply output_scalar in O; [|apply Hf|exact H1]. split; [apply O|]. cbn [sc_secs].
          apply Forall_app. split; [apply O|]. constructor; [apply Hf|constructor].
        * destruct (starts_with _ _); [|discriminate]. destruct (output _ _) as [s2|e|q|] eqn:O; cbn [map_err]; try discriminate.
          intros E; injection E as <-. apply output_scalar in O; [exact O|apply Hf|exact H1].
      + destruct (string_var v s) as [x|e|q|] eqn:X; cbn [bind map_err]; try discriminate.
        destruct (output _ _) as [s2|e|q|] eqn:O; cbn [map_err]; try discriminate. intros E; injection E as <-.
        apply output_scalar in O; [exact O| |exact H]. apply utf8_enc, excerpt_scalars. exact (scalar_string_var _ _ _ HS X).
      + destruct (for_values w f (sc_stack s)) as [vs|e|q|] eqn:V; cbn [bind map_err]; try discriminate.
        apply for_loop_scalar; [exact IH| |exact H]. apply for_values_scalar in V; [|exact HS].
        rewrite Forall_forall in *. intros v Iv. apply V. now apply select_in in Iv.
      + apply run_cond_scalar; [exact IH|]. apply push_scalar; [apply new_scalar|exact H].
      + unfold exec_import. destruct (get_at_path _ _) as [[name b p meta src|name ch src]|] eqn:G; try discriminate.
        destruct p; try discriminate. destruct (sc_stack s) as [|f r] eqn:St; [discriminate|].
        destruct (assoc v (fr_vars f)); [discriminate|]. cbn [map_err]. intros E; injection E as <-.
        inversion HS as [|? ? Hf Hr]; subst. split; [|apply H]. constructor; [|exact Hr]. split; [|apply Hf].
        cbn. apply Forall_app. split; [apply Hf|]. constructor; [|constructor]. apply get_at_path_inside in G. now apply (proj1 Hsite) in G.
      + unfold exec_insert. destruct (sc_stack s) as [|f r] eqn:St; [discriminate|].
        destruct (assoc label (sc_secs s)) as [b|] eqn:A; [|discriminate]. cbn [map_err]. intros E; injection E as <-.
        inversion HS as [|? ? Hf Hr]; subst. split; [|apply H]. constructor; [|exact Hr]. apply add_scalar; [|exact Hf].
        exact (assoc_forall utf8 _ _ _ (proj2 H) A).
      + destruct (string_var v s) as [x|e|q|] eqn:X; cbn [bind map_err]; try discriminate.
        destruct (output _ _) as [s2|e|q|] eqn:O; cbn [map_err]; try discriminate. intros E; injection E as <-.
        apply output_scalar in O; [exact O| |exact H]. apply utf8_enc, scalars_small, show_N_small.
      + destruct (eval_input a (sc_stack s)) as [x|]; cbn [ok_or bind]; [|discriminate].
        destruct (eval_input b (sc_stack s)) as [y|]; cbn [ok_or bind]; [|discriminate].
        apply run_cond_scalar; [exact IH|]. apply push_scalar; [apply new_scalar|exact H].
      + now apply Ht.
    - destruct (var_string v (sc_stack s)) as [x|e|q|] eqn:X; try discriminate.
      apply emit_scalar; [|exact H]. apply utf8_enc. exact (scalar_var_string _ _ _ (proj1 H) X).
  Qed.
  Lemma run_scalar s s' : scalar_scope s -> run w s = Ok s' -> scalar_scope s'.
  Proof.
    unfold run. generalize (S (length (w_toks w))) at 1. generalize (S (length (w_toks w))). intros n k. revert s.
    induction k as [|k IH]; intros s H; cbn [run_all]; [discriminate|].
    destruct (next_token w s) as [[t s1]|] eqn:N; [|intros E; injection E as <-; exact H].
    destruct (next_scalar _ _ _ H N) as [Ht H1]. destruct (exec n w t s1) as [s2|e|q|] eqn:X; cbn [bind]; try discriminate.
    apply IH. exact (exec_scalar n _ _ _ Ht H1 X).
  Qed.
End Utf8.

Section Pages.
  Variable pr : processor.
  Variable i : node.
  Variable b : frame.
  Hypothesis Hi : pr_input pr = Some i.
  Hypothesis Hb : pr_base pr = Some b.
  Hypothesis Hhost : scalar_host (pr_host pr).
  Hypothesis Hsite : scalar_site i.
  Hypothesis Hbase : scalar_frame b.

  Lemma phase_scalar toks st secs s : Forall scalar_token toks -> Forall scalar_frame st -> Forall (fun kv : text * bytes => utf8 (snd kv)) secs ->
    phase pr toks st secs = Ok s -> scalar_scope s.
  Proof.
    intros T S C. unfold phase. rewrite Hi. apply (run_scalar (World (pr_host pr) i toks)); [exact Hhost|exact Hsite|exact T|now split].
  Qed.
  Lemma two_phases_utf8 src toks root first out : Forall scalar_token toks -> Forall scalar_token root -> scalar_frame first ->
    two_phases pr src toks root first b = Ok out -> utf8 out.
  Proof.
    intros T R F. unfold two_phases. destruct (phase pr toks [first] []) as [s|e|q|] eqn:P; cbn [bind]; try discriminate.
    apply phase_scalar in P; [|exact T|constructor; [assumption|constructor]|constructor]. destruct P as [P1 P2].
    destruct (sc_stack s) as [|f r]; [discriminate|]. destruct (is_base f); [|discriminate]. inversion P1 as [|? ? _ P3]; subst.
    destruct (phase pr root (b :: r) (sc_secs s)) as [s2|e|q|] eqn:Q; cbn [bind]; try discriminate.
    apply phase_scalar in Q; [|exact R|now constructor|exact P2]. destruct Q as [Q _].
    destruct (sc_stack s2) as [|f2 r2]; [discriminate|]. intros E; injection E as <-. inversion Q as [|? ? Q1 _]; subst. apply Q1.
  Qed.
  Lemma page_utf8 e src p o out : Forall scalar_token (page_tokens e p) -> Forall scalar_token (root_tokens e) ->
    match p with PageHtml _ => True | PageMd _ m => scalar_markdown m end ->
    render_page pr e src p = Ok o -> po_contents o = Some out -> utf8 out.
  Proof.
    intros T R M. unfold root_tokens in R. destruct p as [toks|name m]; cbn [render_page page_tokens] in *.
    - unfold process_html. destruct (ev_root e) as [root|]; cbn [ok_or bind]; [|discriminate]. rewrite Hb.
      destruct (two_phases _ _ _ _ _ _) as [x|x|q|] eqn:P; cbn [bind]; try discriminate. intros E; injection E as <-. intros E; injection E as <-.
      now apply (two_phases_utf8 _ _ _ _ _ T R Hbase P).
    - unfold process_markdown. destruct (ev_root e) as [root|]; cbn [ok_or bind]; [|discriminate].
      destruct (ev_md e) as [mdt|]; cbn [ok_or bind]; [|discriminate]. rewrite Hb.
      destruct (md_to_value m) as [v|x|q|] eqn:V; cbn [bind]; try discriminate.
      destruct (two_phases _ _ _ _ _ _) as [x|x|q|] eqn:P; cbn [bind]; try discriminate.
      destruct (strip_suffix _ _); [|discriminate]. intros E; injection E as <-. intros E; injection E as <-.
      apply (two_phases_utf8 _ _ _ _ _ T R) in P; [exact P|]. split; [|apply Hbase]. cbn. apply Forall_app. split; [apply Hbase|].
      constructor; [|constructor]. exact (md_value_scalar m v M V).
  Qed.
  (** The UTF-8 check on a markdown body never fails. *)
  Lemma body_utf8 src m s f r : Forall scalar_token (md_tokens m) -> phase pr (md_tokens m) [b] [] = Ok s ->
    sc_stack s = f :: r -> fr_name f = lit "base" ->
    exists t, utf8_text (fr_out f) t /\
      preprocess_markdown pr src m = Ok (Markdown (md_front m) (md_tokens m) (md_string m) (Some (h_md (pr_host pr) t))).
  Proof.
    intros T P S B. apply text_eqb_eq in B. change (is_base f = true) in B. unfold preprocess_markdown. rewrite Hb, P. cbn [bind]. rewrite S, B.
    apply phase_scalar in P; [|exact T|constructor; [assumption|constructor]|constructor]. destruct P as [P _]. rewrite S in P.
    inversion P as [|? ? [_ U] _]; subst. apply utf8_from in U. destruct U as [t U]. rewrite U. exists t. split; [|reflexivity].
    now apply decoding in U.
  Qed.
End Pages.
