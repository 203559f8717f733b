(** StateFacts.v -- plugins that keep state (C96). *)

From Coq Require Import String List NArith ZArith Bool Lia.
From Verif Require Import Text Utf8 Json Base Lexer Syntax Parse Tree Interp Build Js State SpecTemplate SpecScope SpecPage SpecTree SpecState.
From Verif Require Import TextFacts CharFacts CallFacts ParseInv InterpFacts TotalFacts TreeFacts BuildTotal.
Import ListNotations.

(** ** Two runs with related plugin functions *)
Section Par.
  Context {X1 X2 : Type}.
  Variable b1 : behaviour X1.
  Variable b2 : behaviour X2.
  Variable R : forall A : Type, st X1 A -> st X2 A -> Prop.
  Variable P : plugin_fn -> Prop.
  Hypothesis R_ret : forall A (a : A), R A (ret a) (ret a).
  Hypothesis R_bnd : forall A B m1 m2 (f1 : A -> st X1 B) f2, R A m1 m2 -> (forall a, R B (f1 a) (f2 a)) -> R B (bnd m1 f1) (bnd m2 f2).
  Hypothesis R_beh : forall p l s, P p -> R _ (b1 p l s) (b2 p l s).

  Lemma R_bind E A B m1 m2 (f1 : A -> st X1 (res E B)) f2 : R _ m1 m2 -> (forall a, R _ (f1 a) (f2 a)) -> R _ (sbind m1 f1) (sbind m2 f2).
  Proof. intros M F. apply R_bnd; [exact M|]. intros [a|e|p|]; [apply F| | |]; apply R_ret. Qed.
  Lemma R_err E F A (g : E -> F) m1 m2 : R (res E A) m1 m2 -> R _ (smap_err g m1) (smap_err g m2).
  Proof. intros M. apply R_bnd; [exact M|]. intros r. apply R_ret. Qed.
  Lemma R_map E A B (f1 : A -> st X1 (res E B)) f2 l : Forall (fun a => R _ (f1 a) (f2 a)) l -> R _ (smap_res f1 l) (smap_res f2 l).
  Proof.
    induction 1 as [|a l H _ IH]; cbn [smap_res]; [apply R_ret|]. apply R_bind; [exact H|]. intros b. apply R_bind; [exact IH|]. intros r. apply R_ret.
  Qed.
  Section Ex.
    Variable w : world.
    Variable e1 : ltoken -> scope -> st X1 (xres scope).
    Variable e2 : ltoken -> scope -> st X2 (xres scope).
    Hypothesis R_ex : forall t s, In t (w_toks w) -> R _ (e1 t s) (e2 t s).
    Lemma next_in s t s1 : next_token w s = Some (t, s1) -> In t (w_toks w).
    Proof. unfold next_token. destruct (nth_error _ _) as [t'|] eqn:E; [|discriminate]. intros H. injection H as -> _. now apply nth_error_In in E. Qed.
    Lemma R_block h eof k : forall s, R _ (srun_block e1 w h eof k s) (srun_block e2 w h eof k s).
    Proof.
      induction k as [|k IH]; intros s; cbn [srun_block]; destruct (Nat.leb _ _); try apply R_ret.
      destruct (next_token w s) as [[t s1]|] eqn:N; [|apply R_ret]. apply R_bind; [|exact IH]. apply R_ex. now apply next_in in N.
    Qed.
    Lemma R_cond h eof k : forall c s, R _ (srun_cond e1 w h eof k c s) (srun_cond e2 w h eof k c s).
    Proof.
      induction k as [|k IH]; intros c s; cbn [srun_cond]; destruct (Nat.leb _ _); try apply R_ret.
      destruct (next_token w s) as [[t s1]|] eqn:N; [|apply R_ret]. apply R_bind; [apply R_ret|]. intros nm.
      destruct (_ || _); [|apply IH]. apply R_bind; [|intros s2; apply IH]. apply R_ex. now apply next_in in N.
    Qed.
    Lemma R_for name wp eof vs : forall s, R _ (sfor_loop e1 w name wp eof vs s) (sfor_loop e2 w name wp eof vs s).
    Proof. induction vs as [|v vs IH]; intros s; cbn [sfor_loop]; [apply R_ret|]. apply R_bind; [apply R_block|exact IH]. Qed.
    Lemma R_current A s (f1 : loc -> st X1 (xres A)) f2 : (forall l, R _ (f1 l) (f2 l)) -> R _ (swith_current w s f1) (swith_current w s f2).
    Proof. intros F. unfold swith_current. destruct (current w s); [apply F|apply R_ret]. Qed.
    Lemma R_fn f s : (forall p, f = FPlugin p -> P p) -> R _ (sexec_fn b1 e1 w f s) (sexec_fn b2 e2 w f s).
    Proof.
      intros F. destruct f as [label custom|v fmt| |label custom|v k|ff|v|v file|label|v|c a b|p]; cbn [sexec_fn]; try apply R_ret.
      - apply R_current. intros l. apply R_bind; [apply R_ret|]. intros vs. apply R_for.
      - apply R_current. intros l. apply R_cond.
      - apply R_current. intros l. apply R_bind; [apply R_ret|]. intros x. apply R_bind; [apply R_ret|]. intros y. apply R_cond.
      - apply R_current. intros l. apply R_beh. now apply F.
    Qed.
  End Ex.
  Lemma R_exec w n : plugins_of P (w_toks w) -> forall t s, In t (w_toks w) -> R _ (sexec b1 n w t s) (sexec b2 n w t s).
  Proof.
    intros W. induction n as [|n IH]; intros t s T; cbn [sexec]; [apply R_ret|]. destruct (t_inner t) as [r|f|v] eqn:TI; try apply R_ret.
    apply R_fn; [exact IH|]. intros p ->. apply (W p (t_loc t)). destruct t as [i l]. cbn in *. now subst i.
  Qed.
  Lemma R_run_all w n k : plugins_of P (w_toks w) -> forall s, R _ (srun_all b1 k n w s) (srun_all b2 k n w s).
  Proof.
    intros W. induction k as [|k IH]; intros s; cbn [srun_all]; [apply R_ret|].
    destruct (next_token w s) as [[t s1]|] eqn:N; [|apply R_ret]. apply R_bind; [|exact IH]. apply R_exec; [exact W|]. now apply next_in in N.
  Qed.
  Lemma R_phase pr toks sk secs : plugins_of P toks -> R _ (sphase b1 pr toks sk secs) (sphase b2 pr toks sk secs).
  Proof. intros W. unfold sphase. destruct (pr_input pr); [|apply R_ret]. now apply R_run_all. Qed.
  Lemma R_two pr src toks root first base : plugins_of P toks -> plugins_of P root ->
    R _ (stwo_phases b1 pr src toks root first base) (stwo_phases b2 pr src toks root first base).
  Proof.
    intros W V. unfold stwo_phases. apply R_bind; [now apply R_phase|]. intros s. destruct (sc_stack s) as [|f r]; [apply R_ret|].
    destruct (is_base f); [|apply R_ret]. apply R_bind; [now apply R_phase|]. intros s2. apply R_ret.
  Qed.
  Definition env_good (e : env) : Prop :=
    (forall t, ev_root e = Some t -> plugins_of P t) /\ (forall t, ev_md e = Some t -> plugins_of P t).
  Lemma R_known E A B (r : res E A) (f1 : A -> st X1 (res E B)) f2 : (forall a, r = Ok a -> R _ (f1 a) (f2 a)) -> R _ (sbind (ret r) f1) (sbind (ret r) f2).
  Proof.
    destruct r as [a|e|q|]; intros F.
    - change (R _ (f1 a) (f2 a)). now apply F.
    - apply (R_ret _ (Err e)).
    - apply (R_ret _ (Panic q)).
    - apply (R_ret _ OutOfFuel).
  Qed.
  Lemma R_html pr e src toks : env_good e -> plugins_of P toks -> R _ (sprocess_html b1 pr e src toks) (sprocess_html b2 pr e src toks).
  Proof.
    intros [G1 _] W. unfold sprocess_html. apply R_known. intros root E. destruct (ev_root e) as [root'|]; [|discriminate]. injection E as ->.
    destruct (pr_base pr); [|apply R_ret]. apply R_bind; [|intros o; apply R_ret]. apply R_two; [exact W|]. now apply G1.
  Qed.
  Lemma R_markdown pr e src name m : env_good e -> R _ (sprocess_markdown b1 pr e src name m) (sprocess_markdown b2 pr e src name m).
  Proof.
    intros [G1 G2]. unfold sprocess_markdown. apply R_known. intros root E. destruct (ev_root e) as [root'|]; [|discriminate]. injection E as ->.
    apply R_known. intros mdt E. destruct (ev_md e) as [mdt'|]; [|discriminate]. injection E as ->.
    destruct (pr_base pr); [|apply R_ret]. apply R_bind; [apply R_ret|]. intros v. apply R_bind; [|intros o; apply R_ret]. apply R_two; [now apply G2|now apply G1].
  Qed.
  Lemma R_file pr e name b pc meta src : env_good e -> file_good P (NFile name b pc meta src) -> R _ (sprocess_file b1 pr e name b pc src) (sprocess_file b2 pr e name b pc src).
  Proof.
    intros G F. unfold sprocess_file. apply R_bind; [|intros o; apply R_ret]. destruct (is_template_name name); [apply R_ret|].
    destruct pc as [toks|m|j|c| |]; try apply R_ret; apply R_err; [now apply R_html|now apply R_markdown].
  Qed.
  Lemma env_children ch : forall e, env_good e -> Forall (tree_good P) ch -> env_good (env_update e ch).
  Proof.
    induction ch as [|c ch IH]; intros e G F; [exact G|]. inversion F as [|? ? F1 F2]; subst. cbn [env_update fold_left]. apply IH; [|exact F2].
    assert (T : forall t, n_parsed c = PHtml t -> plugins_of P t).
    { intros t E. assert (H := F1 c (in_here c)). destruct c as [nm b p meta src|]; cbn in E; [|discriminate]. now rewrite E in H. }
    unfold env_child. destruct G as [G1 G2].
    destruct (text_eqb (n_name c) (lit "root.html")); [|destruct (text_eqb (n_name c) (lit "md.html")); [|now split]];
      split; cbn [ev_root ev_md]; auto; intros t E; destruct (n_parsed c) eqn:Q; try discriminate; injection E as <-; now apply T.
  Qed.
  Lemma R_node pr n : forall e, env_good e -> tree_good P n -> R _ (sbuild_node b1 pr e n) (sbuild_node b2 pr e n).
  Proof.
    induction n as [name b p meta src|name ch src IH] using node_ind2; intros e G T; cbn [sbuild_node].
    - apply (R_file _ _ _ _ _ meta); [exact G|]. apply (T _ (in_here _)).
    - assert (C := tree_good_children _ _ _ _ T). assert (G' := env_children ch e G C). apply R_bind; [|intros ch'; apply R_ret]. apply R_map.
      rewrite Forall_forall in *. intros c I. now apply IH; [| |apply C].
  Qed.
  Lemma R_pre_md pr src m : plugins_of P (md_tokens m) -> R _ (spreprocess_markdown b1 pr src m) (spreprocess_markdown b2 pr src m).
  Proof. intros W. unfold spreprocess_markdown. destruct (pr_base pr); [|apply R_ret]. apply R_bind; [now apply R_phase|]. intros s. apply R_ret. Qed.
  Lemma R_pre pr n : tree_good P n -> R _ (spreprocess b1 pr n) (spreprocess b2 pr n).
  Proof.
    induction n as [name b p meta src|name ch src IH] using node_ind2; intros T; cbn [spreprocess].
    - assert (F := T _ (in_here _)). destruct p as [toks|m|j|c| |]; try apply R_ret. apply R_bind; [|intros m'; apply R_ret]. apply R_err. apply R_pre_md. apply F.
    - assert (C := tree_good_children _ _ _ _ T). apply R_bind; [|intros ch'; apply R_ret]. apply R_map.
      rewrite Forall_forall in *. intros c I. apply IH; [exact I|now apply C].
  Qed.
End Par.

(** What preprocessing leaves, whatever the plugin functions do. *)
Lemma run_st {X A B} (m : st X A) (f : A -> st X B) x : bnd m f x = f (snd (m x)) (fst (m x)).
Proof. unfold bnd. now destruct (m x). Qed.
Lemma bind_ok {X E A B} (m : st X (res E A)) (f : A -> st X (res E B)) x b x' : sbind m f x = (x', Ok b) ->
  exists a x1, m x = (x1, Ok a) /\ f a x1 = (x', Ok b).
Proof.
  unfold sbind. rewrite run_st. destruct (m x) as [x1 [a|e|q|]] eqn:M; cbn [fst snd]; try (unfold ret; discriminate). intros H. now exists a, x1.
Qed.
Lemma smap_ok {X E A B} (f : A -> st X (res E B)) l : forall x x' r, smap_res f l x = (x', Ok r) ->
  Forall2 (fun a b => exists y y', f a y = (y', Ok b)) l r.
Proof.
  induction l as [|a l IH]; intros x x' r; cbn [smap_res].
  - unfold ret. intros H. injection H as _ <-. constructor.
  - intros H. apply bind_ok in H. destruct H as (b & x1 & F & H). apply bind_ok in H. destruct H as (r' & x2 & G & H). injection H as _ <-.
    constructor; [now exists x, x1|]. now apply IH in G.
Qed.
Lemma spre_good {X} (beh : behaviour X) P pr n : forall x x' n', tree_good P n -> spreprocess beh pr n x = (x', Ok n') -> tree_good P n'.
Proof.
  induction n as [name b p meta src|name ch src IH] using node_ind2; intros x x' n' T; cbn [spreprocess].
  - assert (F := T _ (in_here _)). destruct p as [toks|m|j|c| |]; try (unfold ret; intros H; injection H as _ <-; exact T).
    intros H. apply bind_ok in H. destruct H as (m' & x1 & Q & H). injection H as _ <-. apply tree_good_file. destruct F as [F1 F2]. split; [|exact F2].
    unfold smap_err in Q. rewrite run_st in Q. destruct (spreprocess_markdown beh pr src m x) as [x2 r] eqn:M. cbn [fst snd] in Q. unfold ret in Q.
    destruct r as [m2|e|q|]; try discriminate. injection Q as _ ->. unfold spreprocess_markdown in M. destruct (pr_base pr); [|discriminate].
    apply bind_ok in M. destruct M as (s & x3 & _ & M). unfold ret in M. injection M as _ M. destruct (sc_stack s) as [|f0 r]; [discriminate|].
    destruct (is_base f0); [|discriminate]. destruct (from_utf8 _); [|discriminate]. now injection M as <-.
  - assert (C := tree_good_children _ _ _ _ T). intros H. apply bind_ok in H. destruct H as (ch' & x1 & Q & H). injection H as _ <-.
    apply smap_ok in Q. apply tree_good_dir. clear T. induction Q as [|c c' ch ch' (y & y' & Q1) Q IHQ]; constructor; inversion IH; inversion C; subst; eauto.
Qed.

Lemma new_good P h ps a b e n : plugins_give P ps -> node_new h ps true a b e = Ok n -> tree_good P n.
Proof. intros G. unfold node_new. destruct e as [[b0|l|]|]; try discriminate. intros H. now apply (create_good P h ps _ G) in H. Qed.

Section Par2.
  Context {X1 X2 : Type}.
  Variable b1 : behaviour X1.
  Variable b2 : behaviour X2.
  Variable R : forall A : Type, st X1 A -> st X2 A -> Prop.
  Variable P : plugin_fn -> Prop.
  Hypothesis R_ret : forall A (a : A), R A (ret a) (ret a).
  Hypothesis R_bnd : forall A B m1 m2 (f1 : A -> st X1 B) f2 (Q : A -> Prop), R A m1 m2 -> (forall x x' a, m1 x = (x', a) -> Q a) ->
    (forall a, Q a -> R B (f1 a) (f2 a)) -> R B (bnd m1 f1) (bnd m2 f2).
  Hypothesis R_beh : forall p l s, P p -> R _ (b1 p l s) (b2 p l s).
  Lemma R_bnd' A B m1 m2 (f1 : A -> st X1 B) f2 : R A m1 m2 -> (forall a, R B (f1 a) (f2 a)) -> R B (bnd m1 f1) (bnd m2 f2).
  Proof. intros M F. apply (R_bnd _ _ _ _ _ _ (fun _ => True)); auto. Qed.
  Lemma R_build h osenv mode d b : plugins_give P (st_plugins b) -> R _ (sbuild b1 h osenv mode d b) (sbuild b2 h osenv mode d b).
  Proof.
    intros G. unfold sbuild. destruct (node_new _ _ _ _ _ _) as [input|e|q|] eqn:N; try apply R_ret. cbv zeta.
    assert (T := new_good P _ _ _ _ _ _ G N).
    apply (R_bnd _ _ _ _ _ _ (fun r => forall i, r = Ok i -> tree_good P i)).
    - apply (R_pre b1 b2 R P R_ret R_bnd' R_beh). exact T.
    - intros x x' a E i ->. now apply (spre_good b1 P _ _ _ _ _ T) in E.
    - intros [input'|e|q|] T'; try apply R_ret. specialize (T' _ eq_refl). destruct (n_children input') as [ch|] eqn:C; [|apply R_ret].
      apply R_bnd'; [|intros [o|e|q|]; apply R_ret]. apply (R_node b1 b2 R P R_ret R_bnd' R_beh); [|exact T'].
      apply env_children; [split; discriminate|]. destruct input' as [|nm ch' src]; [discriminate|]. injection C as ->. now apply tree_good_children in T'.
  Qed.
  Lemma R_builds h osenv mode ds : forall b, plugins_give P (st_plugins b) -> R _ (sbuilds b1 h osenv mode ds b) (sbuilds b2 h osenv mode ds b).
  Proof.
    induction ds as [|d ds IH]; intros b G; cbn [sbuilds]; [apply R_ret|].
    apply (R_bnd _ _ _ _ _ _ (fun r => st_plugins (fst r) = st_plugins b)); [now apply R_build| |].
    - intros x x' a. unfold sbuild. destruct (node_new _ _ _ _ _ _); try (unfold ret; intros E; now injection E as _ <-).
      rewrite run_st. destruct (snd (spreprocess _ _ _ _)) as [input'|e|q|]; try (unfold ret; intros E; now injection E as _ <-).
      destruct (n_children input'); [|unfold ret; intros E; now injection E as _ <-]. rewrite run_st.
      destruct (snd (sbuild_node _ _ _ _ _)); unfold ret; intros E; now injection E as _ <-.
    - intros r Q. apply R_bnd'; [|intros rs; apply R_ret]. apply IH. now rewrite Q.
  Qed.
End Par2.

(** ** Related states *)
Section Sim.
  Context {X1 X2 : Type}.
  Variable b1 : behaviour X1.
  Variable b2 : behaviour X2.
  Variable S : X1 -> X2 -> Prop.
  Variable P : plugin_fn -> Prop.
  Hypothesis S_beh : forall p l s x1 x2, P p -> S x1 x2 -> S (fst (b1 p l s x1)) (fst (b2 p l s x2)) /\ snd (b1 p l s x1) = snd (b2 p l s x2).
  Lemma sim_builds h osenv mode ds b x1 x2 : plugins_give P (st_plugins b) -> S x1 x2 ->
    S (fst (sbuilds b1 h osenv mode ds b x1)) (fst (sbuilds b2 h osenv mode ds b x2)) /\
    snd (sbuilds b1 h osenv mode ds b x1) = snd (sbuilds b2 h osenv mode ds b x2).
  Proof.
    intros G H. apply (R_builds b1 b2 (fun A m1 m2 => forall x1 x2, S x1 x2 -> S (fst (m1 x1)) (fst (m2 x2)) /\ snd (m1 x1) = snd (m2 x2)) P); auto.
    intros A B m1 m2 f1 f2 Q M K F y1 y2 Y. rewrite !run_st. destruct (M _ _ Y) as [M1 M2]. rewrite <- M2. apply F; [|exact M1].
    apply (K y1 (fst (m1 y1))). now destruct (m1 y1).
  Qed.
  Lemma sim_build h osenv mode d b x1 x2 : plugins_give P (st_plugins b) -> S x1 x2 ->
    S (fst (sbuild b1 h osenv mode d b x1)) (fst (sbuild b2 h osenv mode d b x2)) /\
    snd (sbuild b1 h osenv mode d b x1) = snd (sbuild b2 h osenv mode d b x2).
  Proof.
    intros G H. apply (R_build b1 b2 (fun A m1 m2 => forall x1 x2, S x1 x2 -> S (fst (m1 x1)) (fst (m2 x2)) /\ snd (m1 x1) = snd (m2 x2)) P); auto.
    intros A B m1 m2 f1 f2 Q M K F y1 y2 Y. rewrite !run_st. destruct (M _ _ Y) as [M1 M2]. rewrite <- M2. apply F; [|exact M1].
    apply (K y1 (fst (m1 y1))). now destruct (m1 y1).
  Qed.
End Sim.

(** ** Functions that keep nothing *)
Definition plain {X} : behaviour X := fun p l s => ret (pf_exec p l s).
Section Plain.
  Context {X : Type}.
  Definition pure {A} (m : st X A) (a : A) : Prop := forall x, m x = (x, a).
  Lemma p_ret A (a : A) : pure (ret a) a. Proof. now intros x. Qed.
  Lemma p_bnd A B (m : st X A) a (f : A -> st X B) b : pure m a -> pure (f a) b -> pure (bnd m f) b.
  Proof. intros M F x. unfold bnd. now rewrite M. Qed.
  Lemma p_bind E A B (m : st X (res E A)) r (f : A -> st X (res E B)) g : pure m r -> (forall a, pure (f a) (g a)) -> pure (sbind m f) (bind r g).
  Proof. intros M F. eapply p_bnd; [exact M|]. destruct r as [a|e|q|]; cbn [bind]; [apply F| | |]; apply p_ret. Qed.
  Lemma p_err E F A (g : E -> F) (m : st X (res E A)) r : pure m r -> pure (smap_err g m) (map_err g r).
  Proof. intros M. eapply p_bnd; [exact M|]. apply p_ret. Qed.
  Lemma p_map E A B (f : A -> st X (res E B)) g l : Forall (fun a => pure (f a) (g a)) l -> pure (smap_res f l) (map_res g l).
  Proof.
    induction 1 as [|a l H _ IH]; cbn [smap_res map_res]; [apply p_ret|]. apply p_bind; [exact H|]. intros b. apply p_bind; [exact IH|]. intros r. apply p_ret.
  Qed.
  Section Ex.
    Variable w : world.
    Variable e1 : ltoken -> scope -> st X (xres scope).
    Variable e2 : ltoken -> scope -> xres scope.
    Hypothesis p_ex : forall t s, pure (e1 t s) (e2 t s).
    Lemma p_block h eof k : forall s, pure (srun_block e1 w h eof k s) (run_block e2 w h eof k s).
    Proof.
      induction k as [|k IH]; intros s; cbn [srun_block run_block]; destruct (Nat.leb _ _); try apply p_ret.
      destruct (next_token w s) as [[t s1]|]; [|apply p_ret]. apply p_bind; [apply p_ex|exact IH].
    Qed.
    Lemma p_cond h eof k : forall c s, pure (srun_cond e1 w h eof k c s) (run_cond e2 w h eof k c s).
    Proof.
      induction k as [|k IH]; intros c s; cbn [srun_cond run_cond]; destruct (Nat.leb _ _); try apply p_ret.
      destruct (next_token w s) as [[t s1]|]; [|apply p_ret]. apply p_bind; [apply p_ret|]. intros nm.
      destruct (_ || _); [|apply IH]. apply p_bind; [apply p_ex|intros s2; apply IH].
    Qed.
    Lemma p_for name wp eof vs : forall s, pure (sfor_loop e1 w name wp eof vs s) (for_loop e2 w name wp eof vs s).
    Proof. induction vs as [|v vs IH]; intros s; cbn [sfor_loop for_loop]; [apply p_ret|]. apply p_bind; [apply p_block|exact IH]. Qed.
    Lemma p_current s (f : loc -> st X (xres scope)) g : (forall l, pure (f l) (g l)) -> pure (swith_current w s f) (with_current w s g).
    Proof. intros F. unfold swith_current, with_current. destruct (current w s); [apply F|apply p_ret]. Qed.
    Lemma p_fn f s : pure (sexec_fn plain e1 w f s) (exec_fn e2 w f s).
    Proof.
      destruct f as [label custom|v fmt| |label custom|v k|ff|v|v file|label|v|c a b|p]; cbn [sexec_fn]; try apply p_ret.
      - apply p_current. intros l. apply p_bind; [apply p_ret|]. intros vs. apply p_for.
      - apply p_current. intros l. apply p_cond.
      - apply p_current. intros l. apply p_bind; [apply p_ret|]. intros x. apply p_bind; [apply p_ret|]. intros y. apply p_cond.
      - apply p_current. intros l. apply p_ret.
    Qed.
  End Ex.
  Lemma p_exec w n : forall t s, pure (sexec plain n w t s) (exec n w t s).
  Proof.
    induction n as [|n IH]; intros t s; cbn [sexec exec]; [apply p_ret|]. destruct (t_inner t) as [r|f|v]; try apply p_ret. now apply p_fn.
  Qed.
  Lemma p_run_all w n k : forall s, pure (srun_all plain k n w s) (run_all k n w s).
  Proof.
    induction k as [|k IH]; intros s; cbn [srun_all run_all]; [apply p_ret|].
    destruct (next_token w s) as [[t s1]|]; [|apply p_ret]. apply p_bind; [apply p_exec|exact IH].
  Qed.
  Lemma p_phase pr toks sk secs : pure (sphase plain pr toks sk secs) (phase pr toks sk secs).
  Proof. unfold sphase, phase. destruct (pr_input pr); [|apply p_ret]. apply p_run_all. Qed.
  Lemma p_two pr src toks root first base : pure (stwo_phases plain pr src toks root first base) (two_phases pr src toks root first base).
  Proof.
    unfold stwo_phases, two_phases. apply p_bind; [apply p_phase|]. intros s. destruct (sc_stack s) as [|f r]; [apply p_ret|].
    destruct (is_base f); [|apply p_ret]. apply p_bind; [apply p_phase|]. intros s2. apply p_ret.
  Qed.
  Lemma p_html pr e src toks : pure (sprocess_html plain pr e src toks) (process_html pr e src toks).
  Proof.
    unfold sprocess_html, process_html. apply p_bind; [apply p_ret|]. intros root. destruct (pr_base pr); [|apply p_ret].
    apply p_bind; [apply p_two|]. intros o. apply p_ret.
  Qed.
  Lemma p_markdown pr e src name m : pure (sprocess_markdown plain pr e src name m) (process_markdown pr e src name m).
  Proof.
    unfold sprocess_markdown, process_markdown. apply p_bind; [apply p_ret|]. intros root. apply p_bind; [apply p_ret|]. intros mdt.
    destruct (pr_base pr); [|apply p_ret]. apply p_bind; [apply p_ret|]. intros v. apply p_bind; [apply p_two|]. intros o. apply p_ret.
  Qed.
  Lemma p_file pr e name b pc src : pure (sprocess_file plain pr e name b pc src) (process_file pr e name b pc src).
  Proof.
    unfold sprocess_file, process_file. apply p_bind; [|intros o; apply p_ret]. destruct (is_template_name name); [apply p_ret|].
    destruct pc as [toks|m|j|c| |]; try apply p_ret; apply p_err; [apply p_html|apply p_markdown].
  Qed.
  Lemma p_node pr n : forall e, pure (sbuild_node plain pr e n) (build_node pr e n).
  Proof.
    induction n as [name b p meta src|name ch src IH] using node_ind2; intros e; cbn [sbuild_node build_node]; [apply p_file|].
    apply p_bind; [|intros ch'; apply p_ret]. apply p_map. rewrite Forall_forall in *. intros c I. now apply IH.
  Qed.
  Lemma p_pre pr n : pure (spreprocess plain pr n) (preprocess pr n).
  Proof.
    induction n as [name b p meta src|name ch src IH] using node_ind2; cbn [spreprocess preprocess].
    - destruct p as [toks|m|j|c| |]; try apply p_ret. apply p_bind; [|intros m'; apply p_ret]. apply p_err.
      unfold spreprocess_markdown, preprocess_markdown. destruct (pr_base pr); [|apply p_ret]. apply p_bind; [apply p_phase|]. intros s. apply p_ret.
    - apply p_bind; [|intros ch'; apply p_ret]. apply p_map. exact IH.
  Qed.
  Lemma p_build h osenv mode d b : pure (sbuild plain h osenv mode d b) (build h osenv mode d b).
  Proof.
    unfold sbuild, build. destruct (node_new _ _ _ _ _ _) as [input|e|q|]; try apply p_ret. cbv zeta. eapply p_bnd; [apply p_pre|].
    destruct (preprocess _ input) as [input'|e|q|] eqn:Q; try apply p_ret.
    unfold build_tree. rewrite Q. cbn [bind]. destruct (n_children input') as [ch|]; [|apply p_ret]. eapply p_bnd; [apply p_node|].
    destruct (build_node _ _ input') as [o|e|q|]; cbn [bind]; apply p_ret.
  Qed.
End Plain.

Lemma answers_plain {X} (beh : behaviour X) h osenv mode d b x :
  plugins_give (fun p => forall l s x, snd (beh p l s x) = pf_exec p l s) (st_plugins b) ->
  snd (sbuild beh h osenv mode d b x) = build h osenv mode d b.
Proof.
  intros G. destruct (sim_build beh (@plain unit) (fun _ _ => True) (fun p => forall l s x, snd (beh p l s x) = pf_exec p l s) (fun p l s x1 x2 Q _ => conj I (Q l s x1)) h osenv mode d b x tt G I) as [_ E].
  rewrite E. now rewrite p_build.
Qed.
Lemma native_plain {Y} (code : N -> text -> option (sjs_code Y)) h osenv mode d b x :
  plugins_give (fun p => pf_call p = None) (st_plugins b) ->
  sbuild (js_behaviour code) h osenv mode d b x = (x, build h osenv mode d b).
Proof.
  intros G.
  assert (K : forall p l s (x1 x2 : contexts Y), pf_call p = None -> x1 = x2 /\ x1 = x ->
    (fst (js_behaviour code p l s x1) = fst (plain p l s x2) /\ fst (js_behaviour code p l s x1) = x) /\
    snd (js_behaviour code p l s x1) = snd (plain p l s x2)).
  { intros p l s x1 x2 Q [-> ->]. unfold js_behaviour. now rewrite Q. }
  destruct (sim_build (js_behaviour code) plain _ _ K h osenv mode d b x x G (conj eq_refl eq_refl)) as [[_ E1] E2].
  rewrite p_build in E2. destruct (sbuild _ _ _ _ _ _ x) as [x' r]. cbn [fst snd] in *. now subst.
Qed.

(** ** Contexts *)
Section Js.
  Context {Y : Type}.
  Variable code : N -> text -> option (sjs_code Y).
  Lemma js_local c p l s (x x' : contexts Y) : in_context c p -> x c = x' c ->
    snd (js_behaviour code p l s x) = snd (js_behaviour code p l s x') /\
    fst (js_behaviour code p l s x) c = fst (js_behaviour code p l s x') c.
  Proof.
    intros (n & args & E) H. unfold js_behaviour. rewrite E. cbn [pc_ctx pc_name pc_args]. destruct (map_res _ args) as [vs|e|q|]; try now split.
    destruct (code c n) as [f|]; [|now split]. rewrite <- H. destruct (sjs_run _ s) as [[[s1 y] r]|e|q|]; try now split.
    cbn [fst snd]. split; [reflexivity|]. unfold keep. now rewrite N.eqb_refl.
  Qed.
  Lemma js_frame c p l s (x : contexts Y) : ~ in_context c p -> fst (js_behaviour code p l s x) c = x c.
  Proof.
    intros H. unfold js_behaviour. destruct (pf_call p) as [[c' n args]|] eqn:E; [|reflexivity]. cbn [pc_ctx pc_name pc_args].
    destruct (map_res _ args) as [vs|e|q|]; try reflexivity. destruct (code c' n) as [f|]; [|reflexivity].
    destruct (sjs_run _ s) as [[[s1 y] r]|e|q|]; try reflexivity. cbn [fst]. unfold keep. destruct (N.eqb_spec c c') as [->|]; [|reflexivity].
    exfalso. apply H. now exists n, args.
  Qed.
  Lemma js_answer c p l s (x : contexts Y) : in_context c p ->
    answers code c (x c) p l s (snd (js_behaviour code p l s x)) (fst (js_behaviour code p l s x) c).
  Proof.
    intros H x' E. destruct (js_local c p l s x' x H E) as [A B]. exists (fst (js_behaviour code p l s x')). split; [|exact B].
    rewrite <- A. now destruct (js_behaviour code p l s x').
  Qed.
  Lemma in_context_dec c p : in_context c p \/ ~ in_context c p.
  Proof.
    unfold in_context. destruct (pf_call p) as [[c' n args]|]; [|right; now intros (? & ? & ?)].
    destruct (N.eq_dec c' c) as [->|D]; [left; now exists n, args|right]. intros (? & ? & E). injection E. intros; now subst.
  Qed.
  (** The sites that use the contexts [C]. *)
  Lemma builds_local (C : N -> Prop) h osenv mode ds b (x x' : contexts Y) :
    plugins_give (fun p => forall c, in_context c p -> C c) (st_plugins b) ->
    (forall c, C c -> x c = x' c) ->
    snd (sbuilds (js_behaviour code) h osenv mode ds b x) = snd (sbuilds (js_behaviour code) h osenv mode ds b x') /\
    (forall c, C c -> fst (sbuilds (js_behaviour code) h osenv mode ds b x) c = fst (sbuilds (js_behaviour code) h osenv mode ds b x') c) /\
    (forall c, ~ C c -> fst (sbuilds (js_behaviour code) h osenv mode ds b x) c = x c).
  Proof.
    intros G H.
    assert (K : forall p l s (y y' : contexts Y), (forall c, in_context c p -> C c) -> (forall c, C c -> y c = y' c) /\ (forall c, ~ C c -> y c = x c) ->
      ((forall c, C c -> fst (js_behaviour code p l s y) c = fst (js_behaviour code p l s y') c) /\
       (forall c, ~ C c -> fst (js_behaviour code p l s y) c = x c)) /\
      snd (js_behaviour code p l s y) = snd (js_behaviour code p l s y')).
    { intros p l s y y' Q [S1 S2]. split; [split|].
      - intros c D. destruct (in_context_dec c p) as [J|J].
        + now apply (js_local c p l s y y' J), S1.
        + rewrite !(js_frame c p l s _ J). now apply S1.
      - intros c D. rewrite js_frame; [now apply S2|]. intros J. now apply D, Q.
      - destruct (pf_call p) as [[c n args]|] eqn:E.
        + assert (J : in_context c p) by now exists n, args. now apply (js_local c p l s y y' J), S1, Q.
        + unfold js_behaviour. now rewrite E. }
    destruct (sim_builds (js_behaviour code) (js_behaviour code) _ _ K h osenv mode ds b x x' G (conj H (fun c _ => eq_refl))) as [[A B] D].
    now split.
  Qed.
  Lemma replays_app c q y1 y2 y3 q' : replays code c y1 q y2 -> replays code c y2 q' y3 -> replays code c y1 (q ++ q') y3.
  Proof. induction 1; intros D; cbn [app]; [exact D|apply rp_other; auto|eapply rp_call; eauto]. Qed.
  Lemma replay_one c p l s (x : contexts Y) x1 a : js_behaviour code p l s x = (x1, a) -> replays code c (x c) [Call p l s a] (x1 c).
  Proof.
    intros E. destruct (in_context_dec c p) as [J|J].
    - eapply rp_call; [exact J| |constructor]. assert (A := js_answer c p l s x J). now rewrite E in A.
    - assert (A := js_frame c p l s x J). rewrite E in A. cbn [fst] in A. rewrite A. apply rp_other; [exact J|constructor].
  Qed.
End Js.

(** ** The calls of a run *)
Section Log.
  Context {X : Type}.
  Variable beh : behaviour X.
  Variable T : X -> list call -> X -> Prop.
  Hypothesis T_none : forall x, T x [] x.
  Hypothesis T_app : forall x1 x2 x3 q q', T x1 q x2 -> T x2 q' x3 -> T x1 (q ++ q') x3.
  Hypothesis T_one : forall p l s x x1 a, beh p l s x = (x1, a) -> T x [Call p l s a] x1.
  Let Rec A (m : st (X * list call) A) (m2 : st X A) : Prop :=
    forall x g, exists q, m (x, g) = ((fst (m2 x), g ++ q), snd (m2 x)) /\ T x q (fst (m2 x)).
  Lemma rec_builds h osenv mode ds b : Rec _ (sbuilds (recording beh) h osenv mode ds b) (sbuilds beh h osenv mode ds b).
  Proof.
    apply (R_builds (recording beh) beh Rec (fun _ => True)).
    - intros A a x g. exists []. cbn. rewrite app_nil_r. auto.
    - intros A B m1 m2 f1 f2 Q M K F x g. destruct (M x g) as (q & M1 & M2). rewrite !run_st, M1. cbn [fst snd].
      destruct (F _ (K _ _ _ M1) (fst (m2 x)) (g ++ q)) as (q' & F1 & F2). exists (q ++ q'). rewrite F1, app_assoc. split; [reflexivity|]. eauto.
    - intros p l s _ x g. unfold recording. cbn [fst snd]. destruct (beh p l s x) as [x1 a] eqn:E. exists [Call p l s a]. cbn [fst snd]. eauto.
    - intros pl f raw g _ _ _. exact I.
  Qed.
  Let Scr A (m : st (X * list call) A) (m2 : st (list call) A) : Prop :=
    forall x g, exists q, snd (fst (m (x, g))) = g ++ q /\ forall q', m2 (q ++ q') = (q', snd (m (x, g))).
  Lemma scr_builds h osenv mode ds b : Scr _ (sbuilds (recording beh) h osenv mode ds b) (sbuilds scripted h osenv mode ds b).
  Proof.
    apply (R_builds (recording beh) scripted Scr (fun _ => True)).
    - intros A a x g. exists []. cbn. rewrite app_nil_r. auto.
    - intros A B m1 m2 f1 f2 Q M K F x g. destruct (M x g) as (q & M1 & M2). rewrite !run_st. destruct (m1 (x, g)) as [[x1 g1] a] eqn:E. cbn [fst snd] in *. subst g1.
      destruct (F _ (K _ _ _ E) x1 (g ++ q)) as (q' & F1 & F2). exists (q ++ q'). rewrite F1, app_assoc. split; [reflexivity|].
      intros r. rewrite run_st, <- app_assoc, M2. cbn [fst snd]. apply F2.
    - intros p l s _ x g. unfold recording, scripted. cbn [fst snd]. destruct (beh p l s x) as [x1 a] eqn:E. exists [Call p l s a]. cbn [fst snd app ca_answer]. auto.
    - intros pl f raw g _ _ _. exact I.
  Qed.
  Lemma log_builds h osenv mode ds b x : exists q x' r,
    sbuilds beh h osenv mode ds b x = (x', r) /\ sbuilds (recording beh) h osenv mode ds b (x, []) = ((x', q), r) /\
    sbuilds scripted h osenv mode ds b q = ([], r) /\ T x q x'.
  Proof.
    destruct (rec_builds h osenv mode ds b x []) as (q & A & B). destruct (scr_builds h osenv mode ds b x []) as (q' & C & D).
    cbn [app] in *. destruct (sbuilds beh h osenv mode ds b x) as [x' r]. cbn [fst snd] in *. rewrite A in C, D. cbn [fst snd] in *. subst q'.
    exists q, x', r. specialize (D []). rewrite app_nil_r in D. auto.
  Qed.
End Log.

Lemma js_log {Y} (code : N -> text -> option (sjs_code Y)) h osenv mode ds b x : exists q x' r,
  sbuilds (js_behaviour code) h osenv mode ds b x = (x', r) /\
  sbuilds (recording (js_behaviour code)) h osenv mode ds b (x, []) = ((x', q), r) /\
  sbuilds scripted h osenv mode ds b q = ([], r) /\
  forall c, replays code c (x c) q (x' c).
Proof.
  apply (log_builds (js_behaviour code) (fun x q x' => forall c, replays code c (x c) q (x' c))).
  - constructor.
  - intros x1 x2 x3 q q' A B c. now apply (replays_app code c q (x1 c) (x2 c)).
  - intros p l s y y1 a E c. now apply replay_one.
Qed.

(** ** Earlier builds *)
Lemma used_same {X} (beh : behaviour X) c ps x b : used beh c ps x b -> st_config b = c /\ st_plugins b = ps.
Proof.
  induction 1 as [x|x b h osenv mode d _ [IH1 IH2]|x b n _ [IH1 IH2]]; [now split| |].
  - unfold sbuild. destruct (node_new _ _ _ _ _ _); try now split. cbv zeta. rewrite run_st.
    destruct (snd (spreprocess _ _ _ _)) as [input'|e|q|]; try now split. destruct (n_children input'); [|now split]. rewrite run_st.
    destruct (snd (sbuild_node _ _ _ _ _)); now split.
  - unfold merge_output. destruct (st_output b); [|now split]. destruct (merge _ n). now split.
Qed.
Lemma build_fresh {X} (beh : behaviour X) h osenv mode d b x :
  let r := sbuild beh h osenv mode d b x in
  let r0 := sbuild beh h osenv mode d (stuart_new (st_config b) (st_plugins b)) x in
  fst r = fst r0 /\ snd (snd r) = snd (snd r0) /\ (snd (snd r) = Ok tt -> snd r = snd r0).
Proof.
  cbv zeta. unfold sbuild, stuart_new. cbn [st_plugins st_config st_output]. destruct (node_new _ _ _ _ _ _); try now repeat split. cbv zeta. rewrite !run_st.
  destruct (snd (spreprocess _ _ _ _)) as [input'|e|q|]; try now repeat split. destruct (n_children input'); [|now repeat split]. rewrite !run_st.
  destruct (snd (sbuild_node _ _ _ _ _)); now repeat split.
Qed.
Lemma used_fresh {X} (beh : behaviour X) c ps x b h osenv mode d : used beh c ps x b ->
  fst (sbuild beh h osenv mode d b x) = fst (sbuild beh h osenv mode d (stuart_new c ps) x) /\
  snd (snd (sbuild beh h osenv mode d b x)) = snd (snd (sbuild beh h osenv mode d (stuart_new c ps) x)) /\
  (snd (snd (sbuild beh h osenv mode d b x)) = Ok tt -> snd (sbuild beh h osenv mode d b x) = snd (sbuild beh h osenv mode d (stuart_new c ps) x)).
Proof. intros U. destruct (used_same _ _ _ _ _ U) as [<- <-]. apply build_fresh. Qed.

(** ** A function of a module works with what that module keeps *)
Lemma module_fn c name fns f raw p : In f (pl_fns (sjs_plugin c name fns)) -> pp_parse f raw = inr p ->
  pf_call p = Some (PCall c (pp_name f) (rf_pos raw)).
Proof. cbn [sjs_plugin pl_fns]. intros H. apply in_map_iff in H. destruct H as (n & <- & _). cbn. intros E. now injection E as <-. Qed.

Lemma module_call {Y} (code code' : N -> text -> option (sjs_code Y)) c name fns : forall f raw p l s x x',
  In f (pl_fns (sjs_plugin c name fns)) -> pp_parse f raw = inr p ->
  (forall g, code c g = code' c g) -> x c = x' c ->
  (forall c', c' <> c -> fst (js_behaviour code p l s x) c' = x c') /\
  snd (js_behaviour code p l s x) = snd (js_behaviour code' p l s x') /\
  fst (js_behaviour code p l s x) c = fst (js_behaviour code' p l s x') c.
Proof.
  intros f raw p l s x x' I E C X. unfold js_behaviour. rewrite (module_fn c name fns f raw p I E). cbn [pc_ctx pc_name pc_args].
  rewrite <- C, <- X.
  destruct (map_res _ _) as [vs|e|q|]; [|now split..].
  destruct (code c _) as [g|]; [|now split]. destruct (sjs_run _ _) as [[[s1 y] r]|e|q|]; [|now split..].
  cbn [fst snd]. split; [|split; [reflexivity|]].
  - intros c' H. unfold keep. destruct (N.eqb_spec c' c); [contradiction|reflexivity].
  - unfold keep. now rewrite N.eqb_refl.
Qed.

Lemma modules_builds {Y} (code : N -> text -> option (sjs_code Y)) (mods : list (N * text * list text)) :
  forall h osenv mode ds c x x',
  let b := stuart_new c (map (fun m => sjs_plugin (fst (fst m)) (snd (fst m)) (snd m)) mods) in
  let own c := In c (map (fun m => fst (fst m)) mods) in
  (forall c, own c -> x c = x' c) ->
  snd (sbuilds (js_behaviour code) h osenv mode ds b x) = snd (sbuilds (js_behaviour code) h osenv mode ds b x') /\
  (forall c, own c -> fst (sbuilds (js_behaviour code) h osenv mode ds b x) c = fst (sbuilds (js_behaviour code) h osenv mode ds b x') c) /\
  (forall c, ~ own c -> fst (sbuilds (js_behaviour code) h osenv mode ds b x) c = x c).
Proof.
  intros h osenv mode ds c x x' b own A. apply (builds_local code own); [|exact A].
  intros pl f raw g I J E k (n & args & F). cbn [st_plugins b stuart_new] in I. apply in_map_iff in I. destruct I as (m & <- & M).
  rewrite (module_fn _ _ _ f raw g J E) in F. injection F as <- _ _. unfold own. apply in_map_iff. now exists m.
Qed.
