(** InterpFacts.v -- what processing a token can do: stack, position, errors, termination. *)

From Coq Require Import String List NArith ZArith Bool Lia.
From Verif Require Import Text TextFacts Utf8 Json Base Syntax Parse Tree Interp SpecScope.
Import ListNotations.

Lemma grown_refl f : grown f f.
Proof. split; [reflexivity|]. split; exists []; now rewrite app_nil_r. Qed.
Lemma printed_refl f : printed f f.
Proof. split; [reflexivity|]. split; [reflexivity|]. exists []; now rewrite app_nil_r. Qed.
Lemma printed_trans f g k : printed f g -> printed g k -> printed f k.
Proof.
  intros (A & B & x & C) (D & E & y & F). split; [congruence|]. split; [congruence|].
  exists (x ++ y). rewrite F, C. now rewrite app_assoc.
Qed.
Lemma printed_grown f g : printed f g -> grown f g.
Proof. intros (A & B & C). split; [exact A|]. split; [exists []; rewrite B; now rewrite app_nil_r | exact C]. Qed.
Lemma printed_out f b : printed f (add_out b f).
Proof. split; [reflexivity|]. split; [reflexivity|]. now exists b. Qed.
Lemma grown_var f n v : grown f (add_var n v f).
Proof. split; [reflexivity|]. split; [now exists [(n, v)]|]. exists []. cbn. now rewrite app_nil_r. Qed.

Definition fresh (f : frame) : Prop := fr_vars f = [] /\ fr_out f = [] /\ In c_colon (fr_name f).

(** What one token can do to the stack. *)
Inductive shape : list frame -> list frame -> Prop :=
| sh_push st nf : fresh nf -> shape st (nf :: st)
| sh_same f f' r : grown f f' -> shape (f :: r) (f' :: r)
| sh_pop f g g' r : In c_colon (fr_name f) -> printed g g' -> shape (f :: g :: r) (g' :: r).

Definition sec_ext (s s' : scope) : Prop := exists x, sc_secs s' = sc_secs s ++ x.
Lemma sec_ext_refl s : sec_ext s s.
Proof. exists []; now rewrite app_nil_r. Qed.
Lemma sec_ext_trans a b c : sec_ext a b -> sec_ext b c -> sec_ext a c.
Proof. intros [x H] [y H']. exists (x ++ y). rewrite H', H. now rewrite app_assoc. Qed.

Definition moved (w : world) (s s' : scope) : Prop :=
  shape (sc_stack s) (sc_stack s') /\ (sc_idx s <= sc_idx s')%nat /\
  (sc_idx s' <= length (w_toks w))%nat /\ sec_ext s s'.

(** Allowed results: with [strict], no panic and no exhausted fuel. *)
Definition allowed (strict : Prop) (w : world) (P : scope -> Prop) (r : xres scope) : Prop :=
  match r with
  | Ok s' => P s'
  | Err e => blamed (w_toks w) e
  | Panic _ | OutOfFuel => ~ strict
  end.

Lemma allowed_mono strict w (P Q : scope -> Prop) r :
  (forall s, P s -> Q s) -> allowed strict w P r -> allowed strict w Q r.
Proof. destruct r; cbn; auto. Qed.

(** The top part of a stack over a bottom that only gains output. *)
Definition over (f : frame) (r st : list frame) : Prop :=
  exists top f', st = top ++ f' :: r /\ printed f f'.

Lemma over_shape f r st st' : over f r st -> (length st > length (f :: r))%nat -> shape st st' -> over f r st'.
Proof.
  intros (top & f' & E & P) HL S. destruct S as [st nf F|a a' q G|a b b' q HC G].
  - exists (nf :: top), f'. now rewrite E.
  - destruct top as [|x top]; cbn in E; injection E as -> ->; [cbn in HL; lia|]. now exists (a' :: top), f'.
  - destruct top as [|x top]; cbn in E; injection E as -> E; [subst; cbn in HL; lia|].
    destruct top as [|y top]; cbn in E; injection E as -> ->.
    + exists [], b'. split; [reflexivity|]. now apply (printed_trans _ f').
    + now exists (b' :: top), f'.
Qed.
Lemma over_done f r st : over f r st -> (length st <= length (f :: r))%nat -> exists f', st = f' :: r /\ printed f f'.
Proof.
  intros (top & f' & -> & P) HL. destruct top as [|x top].
  - now exists f'.
  - rewrite app_length in HL. cbn in HL. lia.
Qed.
Lemma over_nonempty f r st : over f r st -> st <> [].
Proof. intros (top & f' & -> & P). now destruct top. Qed.

Lemma next_some w s t s1 : next_token w s = Some (t, s1) ->
  s1 = set_idx (S (sc_idx s)) s /\ current w s1 = Some t /\ (sc_idx s1 <= length (w_toks w))%nat.
Proof.
  unfold next_token. destruct (nth_error _ _) eqn:E; [|discriminate].
  intros H; injection H; intros; subst. repeat split; [exact E|].
  cbn. apply nth_error_Some. congruence.
Qed.

Lemma current_in w s t : current w s = Some t -> In t (w_toks w).
Proof. unfold current. destruct (sc_idx s); [discriminate|]. apply nth_error_In. Qed.

Section Loops.
  Variable strict : Prop.
  Variable w : world.
  Variable fuel : nat.                     (* of the nested calls *)
  Variable ex : ltoken -> scope -> xres scope.
  Hypothesis Hex : forall t s, current w s = Some t -> sc_stack s <> [] ->
    (sc_idx s <= length (w_toks w))%nat -> (strict -> (fuel + sc_idx s > length (w_toks w))%nat) ->
    allowed strict w (moved w s) (ex t s).
  Hypothesis Hnames : strict -> plugins_of plugin_total (w_toks w).
  Variable eof : tbe.
  Hypothesis Heof : blamed (w_toks w) eof.

  Variables (f : frame) (r : list frame).
  Let h := length (f :: r).

  (** How a block ends. *)
  Definition closed (s s' : scope) : Prop :=
    (exists f', sc_stack s' = f' :: r /\ printed f f') /\ (sc_idx s <= sc_idx s')%nat /\
    (sc_idx s' <= length (w_toks w))%nat /\ sec_ext s s'.

  Lemma step_ok (t : ltoken) (s : scope) (k : nat) :
    next_token w s = Some (t, set_idx (S (sc_idx s)) s) -> over f r (sc_stack s) ->
    (length (sc_stack s) > h)%nat ->
    (strict -> (fuel + S (sc_idx s) > length (w_toks w))%nat) ->
    allowed strict w (fun s' => over f r (sc_stack s') /\ (S (sc_idx s) <= sc_idx s')%nat /\
      (sc_idx s' <= length (w_toks w))%nat /\ sec_ext s s') (ex t (set_idx (S (sc_idx s)) s)).
  Proof.
    clear Hnames. intros N O L F. destruct (next_some _ _ _ _ N) as (_ & C & B).
    generalize (Hex t _ C (over_nonempty _ _ _ O) B F).
    apply allowed_mono. intros s' (S & I1 & I2 & E). cbn in S, I1, I2.
    split; [now apply (over_shape f r (sc_stack s))|]. repeat split; try lia. exact E.
  Qed.

  Lemma run_block_ok k : forall s, over f r (sc_stack s) -> (sc_idx s <= length (w_toks w))%nat ->
    (strict -> (k + sc_idx s > length (w_toks w))%nat /\ (fuel + S (sc_idx s) > length (w_toks w))%nat) ->
    allowed strict w (closed s) (run_block ex w h eof k s).
  Proof.
    clear Hnames. induction k as [|k IH]; intros s O B F; cbn [run_block].
    - destruct (Nat.leb_spec (length (sc_stack s)) h).
      + cbn. split; [now apply over_done|]. repeat split; try lia. exact (ex_intro _ [] (eq_sym (app_nil_r _))).
      + cbn. intros Hs. specialize (F Hs). lia.
    - destruct (Nat.leb_spec (length (sc_stack s)) h).
      + cbn. split; [now apply over_done|]. repeat split; try lia. exact (ex_intro _ [] (eq_sym (app_nil_r _))).
      + destruct (next_token w s) as [[t s1]|] eqn:N; [|exact Heof].
        destruct (next_some _ _ _ _ N) as (-> & C & B').
        assert (A := step_ok t s k N O H ltac:(intros Hs; specialize (F Hs); lia)).
        destruct (ex t (set_idx (S (sc_idx s)) s)) as [s2|e|p|]; cbn [bind]; try exact A.
        cbn in A. destruct A as (O2 & I1 & I2 & E).
        assert (A2 := IH s2 O2 I2). 
        apply (allowed_mono _ _ (closed s2)); [|apply A2; intros Hs; specialize (F Hs); lia].
        intros s' (Q1 & Q2 & Q3 & Q4). split; [exact Q1|]. repeat split; try lia.
        now apply (sec_ext_trans _ s2).
  Qed.

  Lemma token_fn_name_ok t s : current w s = Some t ->
    match token_fn_name t with Ok _ => True | Panic _ => ~ strict | _ => False end.
  Proof.
    intros C. unfold token_fn_name. destruct t as [inner l]; cbn. destruct inner as [|g|]; try exact I.
    destruct (func_name g) eqn:N; [exact I|]. intros Hs. destruct g; try discriminate N.
    cbn in N. apply current_in in C. destruct (Hnames Hs _ _ C) as [Q _]. contradiction.
  Qed.

  Lemma run_cond_ok k : forall c s, over f r (sc_stack s) -> (sc_idx s <= length (w_toks w))%nat ->
    (strict -> (k + sc_idx s > length (w_toks w))%nat /\ (fuel + S (sc_idx s) > length (w_toks w))%nat) ->
    allowed strict w (closed s) (run_cond ex w h eof k c s).
  Proof.
    induction k as [|k IH]; intros c s O B F; cbn [run_cond].
    - destruct (Nat.leb_spec (length (sc_stack s)) h).
      + cbn. split; [now apply over_done|]. repeat split; try lia. exact (ex_intro _ [] (eq_sym (app_nil_r _))).
      + cbn. intros Hs. specialize (F Hs). lia.
    - destruct (Nat.leb_spec (length (sc_stack s)) h).
      + cbn. split; [now apply over_done|]. repeat split; try lia. exact (ex_intro _ [] (eq_sym (app_nil_r _))).
      + destruct (next_token w s) as [[t s1]|] eqn:N; [|exact Heof].
        destruct (next_some _ _ _ _ N) as (-> & C & B').
        assert (T := token_fn_name_ok t _ C). destruct (token_fn_name t) as [nm|e|p|]; cbn [bind]; try contradiction; [|exact T].
        match goal with |- context [if ?b then _ else _] => destruct b end.
        * assert (A := step_ok t s k N O H ltac:(intros Hs; specialize (F Hs); lia)).
          destruct (ex t (set_idx (S (sc_idx s)) s)) as [s2|e|p|]; cbn [bind]; try exact A.
          cbn in A. destruct A as (O2 & I1 & I2 & E).
          match goal with |- context [run_cond _ _ _ _ _ ?c _] => assert (A2 := IH c s2 O2 I2) end.
          apply (allowed_mono _ _ (closed s2)); [|apply A2; intros Hs; specialize (F Hs); lia].
          intros s' (Q1 & Q2 & Q3 & Q4). split; [exact Q1|]. repeat split; try lia.
          now apply (sec_ext_trans _ s2).
        * assert (A2 := IH c (set_idx (S (sc_idx s)) s) O B').
          apply (allowed_mono _ _ (closed (set_idx (S (sc_idx s)) s))); [|apply A2; intros Hs; specialize (F Hs); cbn; lia].
          intros s' (Q1 & Q2 & Q3 & Q4). cbn in Q2. split; [exact Q1|]. repeat split; try lia. exact Q4.
  Qed.
End Loops.

Lemma closed_moved w f r s s' : closed w f r s s' -> sc_stack s = f :: r -> moved w s s'.
Proof.
  intros ((f' & E & P) & I1 & I2 & X) S. split; [|now repeat split].
  rewrite S, E. apply sh_same. now apply printed_grown.
Qed.

Lemma for_loop_ok (strict : Prop) w fuel ex name way eof :
  (forall t s, current w s = Some t -> sc_stack s <> [] ->
    (sc_idx s <= length (w_toks w))%nat -> (strict -> (fuel + sc_idx s > length (w_toks w))%nat) ->
    allowed strict w (moved w s) (ex t s)) ->
  blamed (w_toks w) eof -> (way <= length (w_toks w))%nat ->
  (strict -> (fuel + S way > length (w_toks w))%nat) ->
  forall vs f r s, sc_stack s = f :: r -> (way <= sc_idx s <= length (w_toks w))%nat ->
  allowed strict w (fun s' => (exists f', sc_stack s' = f' :: r /\ printed f f') /\ (way <= sc_idx s')%nat /\
     (sc_idx s' <= length (w_toks w))%nat /\ sec_ext s s')
    (for_loop ex w name way eof vs s).
Proof.
  intros Hex Heof Hw Hf. induction vs as [|v vs IH]; intros f r s S B; cbn [for_loop].
  - cbn. split; [exists f; split; [exact S|apply printed_refl]|]. repeat split; try lia. exact (ex_intro _ [] (eq_sym (app_nil_r _))).
  - cbn [sc_stack set_idx set_stack]. rewrite S.
    match goal with |- context [run_block ?a ?b ?c ?d ?e ?g] =>
      assert (A := run_block_ok strict w fuel ex Hex eof Heof f r e g) end.
    cbn [sc_stack sc_idx push_frame set_idx set_stack] in A.
    assert (A1 : over f r (add_var name v (new_frame (lit "for:" ++ name)) :: sc_stack s)).
    { rewrite S. exists [add_var name v (new_frame (lit "for:" ++ name))], f. split; [reflexivity|apply printed_refl]. }
    specialize (A A1 ltac:(lia)).
    assert (A3 : strict -> (Datatypes.S (length (w_toks w)) + way > length (w_toks w))%nat /\ (fuel + Datatypes.S way > length (w_toks w))%nat).
    { intros Hs. specialize (Hf Hs). lia. }
    specialize (A A3).
    match goal with |- context [run_block ?a ?b ?c ?d ?e ?g] => destruct (run_block a b c d e g) as [s3|e3|p|] end;
      cbn [bind]; try exact A.
    cbn in A. destruct A as ((f' & S' & P) & I1 & I2 & E). cbn in I1.
    generalize (IH f' r s3 S' ltac:(lia)). apply allowed_mono.
    intros s' ((f2 & S2 & P2) & I3 & I4 & E2). split; [exists f2; split; [exact S2|now apply (printed_trans _ f')]|].
    repeat split; try lia. apply (sec_ext_trans _ s3); [|exact E2].
    destruct E as [x E]. exists x. exact E.
Qed.

(** ** Leaf functions *)
Lemma inside_trans a b c : inside a b -> inside b c -> inside a c.
Proof.
  intros H K. induction K as [|m name ch src x Hx K IH]; [exact H|]. eapply in_child; eauto.
Qed.
Lemma walk_inside p : forall n m, walk n p = Some m -> inside m n.
Proof.
  induction p as [|c p IH]; intros n m H; cbn in H.
  - injection H as ->. apply in_here.
  - destruct n as [| nm ch src]; cbn in H; [discriminate|].
    destruct (find_child c ch) as [k|] eqn:E; [|discriminate].
    apply find_some in E. eapply in_child; [apply E|]. now apply IH.
Qed.
Lemma get_at_path_inside n p m : get_at_path n p = Some m -> inside m n.
Proof. unfold get_at_path. destruct (components p); [apply walk_inside|discriminate]. Qed.

Lemma md_values_ok {E} (l : list node) :
  match @md_values E l with
  | Ok _ => True
  | Panic _ => exists name b m meta src, In (NFile name b (PMarkdown m) meta src) l /\ md_html m = None
  | _ => False
  end.
Proof.
  induction l as [|n l IH]; cbn; [exact I|].
  assert (IH' : match @md_values E l with
    | Ok _ => True
    | Panic _ => exists name b m meta src, In (NFile name b (PMarkdown m) meta src) (n :: l) /\ md_html m = None
    | _ => False end).
  { destruct (md_values l); try exact IH. destruct IH as (a & b & c & d & e & H & K). exists a, b, c, d, e. split; [now right|exact K]. }
  destruct n as [name b p meta src|]; [|exact IH']. cbn [n_parsed]. destruct p; try exact IH'.
  unfold md_to_value. destruct (md_html m) eqn:Hm.
  - cbn. destruct (md_values l); cbn; try exact IH'; try exact I. 
  - cbn. exists name, b, m, meta, src. split; [now left|exact Hm].
Qed.

Lemma rendered_ready site toks : rendered site -> loops_ready site toks.
Proof.
  intros R f l name ch src file b m meta fsrc _ _ G I. apply (R file b m meta fsrc).
  apply (inside_trans _ (NDir name ch src)); [|now apply get_at_path_inside in G]. eapply in_child; [exact I|apply in_here].
Qed.
Lemma for_values_ok (strict : Prop) w l f st : (strict -> loops_ready (w_input w) (w_toks w)) -> In (LTok (TFun (FFor f)) l) (w_toks w) ->
  match for_values w f st with
  | Ok _ => True
  | Err e => e = XE_NotJsonArray \/ (e = XE_NotFound (ff_src f) /\ ff_type f <> SrcVar)
  | Panic _ => ~ strict
  | OutOfFuel => False
  end.
Proof.
  intros R If. unfold for_values. destruct (ff_type f) eqn:T.
  - destruct (get_at_path (w_input w) (ff_src f)) as [[|name ch src]|] eqn:G; try (right; split; [reflexivity|discriminate]).
    assert (M := @md_values_ok process_error ch). destruct (md_values ch); try contradiction; [exact I|].
    intros Hs. destruct M as (a & b & c & d & e & H & K). exact (R Hs f l name ch src a b c d e If T G H K).
  - destruct (get_at_path (w_input w) (ff_src f)) as [[nm b pc meta src|]|] eqn:G; try (right; split; [reflexivity|discriminate]).
    destruct pc; cbn; try (now left). destruct (as_array v); cbn; [exact I|now left].
  - destruct (get_variable (ff_src f) st) as [v|]; cbn; [|now left]. destruct (as_array v); cbn; [exact I|now left].
Qed.

Lemma string_var_ok v s : match string_var v s with
  | Ok _ => True | Err e => e = XE_UndefinedVariable v \/ e = XE_InvalidDataType v (lit "string") [] | _ => False end.
Proof.
  unfold string_var. destruct (get_variable _ _) as [x|]; [|now left]. destruct (as_str x); cbn; [exact I|now right].
Qed.

Lemma output_ok b s f r : sc_stack s = f :: r -> output b s = Ok (set_stack (add_out b f :: r) s).
Proof. intros H. unfold output. now rewrite H. Qed.

Lemma moved_same w s f f' r : sc_stack s = f :: r -> grown f f' -> (sc_idx s <= length (w_toks w))%nat ->
  moved w s (set_stack (f' :: r) s).
Proof.
  intros S G B. split; [cbn; rewrite S; now apply sh_same|]. cbn. repeat split; try lia. exact (ex_intro _ [] (eq_sym (app_nil_r _))).
Qed.

(** ** A token *)
Section Exec.
  Variable strict : Prop.
  Variable w : world.
  Hypothesis Hplug : plugins_of plugin_ok (w_toks w).
  Hypothesis Htotal : strict -> plugins_of plugin_total (w_toks w).
  Hypothesis Hsite : strict -> loops_ready (w_input w) (w_toks w).

  Lemma located_ok (s : scope) (t : ltoken) (r : res process_error scope) :
    current w s = Some t ->
    match r with
    | Ok s' => moved w s s'
    | Err e => may_raise e (t_inner t)
    | Panic _ | OutOfFuel => ~ strict
    end ->
    allowed strict w (moved w s) (with_current w s (fun l => map_err (tb l) r)).
  Proof.
    intros C H. unfold with_current. rewrite C. destruct r as [s'|e|p|]; cbn; try exact H.
    exists t. split; [now apply current_in in C|]. now split.
  Qed.

  Definition block_fn (g : func) : Prop :=
    match g with FFor _ | FIfDefined _ | FIf _ _ _ => True | _ => False end.

  Lemma block_ok n t g s f r :
    (forall t s, current w s = Some t -> sc_stack s <> [] ->
      (sc_idx s <= length (w_toks w))%nat -> (strict -> (n + sc_idx s > length (w_toks w))%nat) ->
      allowed strict w (moved w s) (exec n w t s)) ->
    t_inner t = TFun g -> block_fn g -> current w s = Some t -> sc_stack s = f :: r ->
    (sc_idx s <= length (w_toks w))%nat -> (strict -> (n + Datatypes.S (sc_idx s) > length (w_toks w))%nat) ->
    allowed strict w (closed w f r s) (exec_fn (exec n w) w g s).
  Proof.
    intros IH T HB C S B F. assert (Ht : In t (w_toks w)) by now apply current_in in C.
    destruct g as [label custom|v fmt| |label custom|v k|ff|v|v file|label|v|c a b|p]; cbn in HB; try contradiction; cbn [exec_fn].
    - unfold with_current. rewrite C.
      assert (V := for_values_ok strict w (t_loc t) ff (sc_stack s) Hsite ltac:(destruct t as [ti tl]; cbn in T; now subst ti)).
      destruct (for_values w ff (sc_stack s)) as [vs|e|p|]; cbn [map_err bind]; try contradiction; [| |exact V].
      + assert (Q : blamed (w_toks w) (tb (t_loc t) XE_UnexpectedEndOfFile)).
        { exists t. split; [exact Ht|]. rewrite T. cbn. split; [left; now exists ff|reflexivity]. }
        exact (for_loop_ok strict w n (exec n w) (ff_var ff) (sc_idx s) _ IH Q B F (select ff vs) f r s S ltac:(lia)).
      + cbn. exists t. split; [exact Ht|]. rewrite T. cbn. destruct V as [-> | [-> V]]; cbn.
        * split; [now exists ff|reflexivity].
        * split; [right; now exists ff|reflexivity].
    - unfold with_current. rewrite C.
      assert (Q : blamed (w_toks w) (tb (t_loc t) XE_UnexpectedEndOfFile)).
      { exists t. split; [exact Ht|]. rewrite T. cbn. split; [right; left; now exists v|reflexivity]. }
      match goal with |- context [run_cond ?a ?b ?h ?d ?k ?c ?x] =>
        assert (L := run_cond_ok strict w n a IH Htotal d Q f r k c x) end.
      cbn [sc_stack sc_idx push_frame set_stack] in L. rewrite S in L. rewrite S.
      exact (L ltac:(exists [new_frame (lit "ifdefined:" ++ v)], f; split; [reflexivity|apply printed_refl]) B ltac:(intros Hs; specialize (F Hs); lia)).
    - unfold with_current. rewrite C.
      assert (U : forall i, (i = a \/ i = b) -> eval_input i (sc_stack s) = None ->
        blamed (w_toks w) (tb (t_loc t) (XE_UndefinedVariable (show_input i)))).
      { intros i Hi E. exists t. split; [exact Ht|]. rewrite T. split; [|reflexivity]. cbn.
        destruct i as [x|x|x]; cbn in E; try discriminate E. cbn. right; right; right; right.
        exists c, a, b. split; [reflexivity|]. destruct Hi as [-> | ->]; auto. }
      destruct (eval_input a (sc_stack s)) eqn:Ea; cbn [ok_or bind]; [|now apply U; auto].
      destruct (eval_input b (sc_stack s)) eqn:Eb; cbn [ok_or bind]; [|now apply U; auto].
      assert (Q : blamed (w_toks w) (tb (t_loc t) XE_UnexpectedEndOfFile)).
      { exists t. split; [exact Ht|]. rewrite T. cbn. split; [right; right; now exists c, a, b|reflexivity]. }
      match goal with |- context [run_cond ?a ?b ?h ?d ?k ?c ?x] =>
        assert (L := run_cond_ok strict w n a IH Htotal d Q f r k c x) end.
      cbn [sc_stack sc_idx push_frame set_stack] in L. rewrite S in L. rewrite S.
      exact (L ltac:(exists [new_frame (if_frame_name c a b)], f; split; [reflexivity|apply printed_refl]) B ltac:(intros Hs; specialize (F Hs); lia)).
  Qed.

  Lemma exec_ok n : forall t s, current w s = Some t -> sc_stack s <> [] ->
    (sc_idx s <= length (w_toks w))%nat -> (strict -> (n + sc_idx s > length (w_toks w))%nat) ->
    allowed strict w (moved w s) (exec n w t s).
  Proof.
    induction n as [|n IH]; intros t s C N B F.
    { cbn. intros Hs. specialize (F Hs). lia. }
    cbn [exec]. assert (Ht : In t (w_toks w)) by now apply current_in in C.
    destruct (sc_stack s) as [|f r] eqn:S; [contradiction|].
    assert (F' : strict -> (n + Datatypes.S (sc_idx s) > length (w_toks w))%nat) by (intros Hs; specialize (F Hs); lia).
    destruct (t_inner t) as [x|g|v] eqn:T.
    - unfold emit. rewrite S. cbn. now apply moved_same with f; [|apply printed_grown, printed_out|].
    - destruct g as [label custom|v fmt| |label custom|v k|ff|v|v file|label|v|c a b|p]; cbn [exec_fn].
      + cbn. split; [cbn; apply sh_push; repeat split; cbn; right; right; right; right; right; now left|]. cbn. repeat split; try lia. exact (ex_intro _ [] (eq_sym (app_nil_r _))).
      + apply (located_ok s t); [exact C|]. rewrite T. unfold exec_date. destruct (h_date (w_host w)) as [d|].
        * assert (SV := string_var_ok v s). destruct (string_var v s) as [x|e| |]; cbn; try contradiction.
          -- destruct (d x fmt); cbn; [|now exists v, fmt]. rewrite (output_ok _ _ f r S).
             now apply moved_same with f; [|apply printed_grown, printed_out|].
          -- destruct SV as [-> | ->]; cbn; right; right; left; now exists fmt.
        * cbn. split; [reflexivity|now exists v, fmt].
      + apply (located_ok s t); [exact C|]. rewrite T. unfold exec_else. rewrite S.
        destruct (starts_with (lit "if") (fr_name f)); cbn; [|reflexivity].
        replace s with (set_stack (f :: r) s) at 2 by (destruct s; cbn in *; now rewrite <- S).
        now apply moved_same with f; [|apply grown_refl|].
      + apply (located_ok s t); [exact C|]. rewrite T. unfold exec_end. rewrite S. unfold output.
        cbn [sc_stack set_stack]. destruct custom.
        * destruct (text_eqb (fr_name f) _) eqn:Q; [|cbn; eauto]. apply text_eqb_eq in Q.
          assert (K : In c_colon (fr_name f)) by (rewrite Q; now right; right; right; right; right; left). destruct r as [|g r]; cbn; [eauto|].
          split; [cbn; rewrite S; apply sh_pop; [exact K|apply printed_out]|]. cbn. repeat split; try lia. now exists [(label, fr_out f)].
        * destruct (starts_with _ (fr_name f)) eqn:Q; [|cbn; eauto]. apply starts_with_spec in Q.
          assert (K : In c_colon (fr_name f)) by (destruct Q as [q ->]; apply in_or_app; left; apply in_or_app; right; now left). destruct r as [|g r]; cbn; [eauto|].
          split; [cbn; rewrite S; apply sh_pop; [exact K|apply printed_out]|]. cbn. repeat split; try lia. exact (ex_intro _ [] (eq_sym (app_nil_r _))).
      + apply (located_ok s t); [exact C|]. rewrite T. assert (SV := string_var_ok v s). destruct (string_var v s) as [x|e| |]; cbn; try contradiction.
        * rewrite (output_ok _ _ f r S). now apply moved_same with f; [|apply printed_grown, printed_out|].
        * destruct SV as [-> | ->]; cbn; right; left; now exists k.
      + exact (allowed_mono _ _ _ _ _ (fun s' A => closed_moved w f r s s' A S) (block_ok n t _ s f r IH T I C S B F')).
      + exact (allowed_mono _ _ _ _ _ (fun s' A => closed_moved w f r s s' A S) (block_ok n t _ s f r IH T I C S B F')).
      + apply (located_ok s t); [exact C|]. rewrite T. unfold exec_import.
        destruct (get_at_path _ _) as [[nm b pc meta src|]|]; try (cbn; left; now exists v).
        destruct pc; cbn; try (right; right; right; right; split; [reflexivity|now exists v, file]).
        rewrite S. destruct (assoc v (fr_vars f)); cbn; [now exists file|].
        now apply moved_same with f; [|apply grown_var|].
      + apply (located_ok s t); [exact C|]. rewrite T. unfold exec_insert. rewrite S.
        destruct (assoc label (sc_secs s)); cbn; [|reflexivity].
        now apply moved_same with f; [|apply printed_grown, printed_out|].
      + apply (located_ok s t); [exact C|]. rewrite T. assert (SV := string_var_ok v s). destruct (string_var v s) as [x|e| |]; cbn [bind]; try contradiction.
        * rewrite (output_ok _ _ f r S). now apply moved_same with f; [|apply printed_grown, printed_out|].
        * destruct SV as [-> | ->]; cbn; tauto.
      + exact (allowed_mono _ _ _ _ _ (fun s' A => closed_moved w f r s s' A S) (block_ok n t _ s f r IH T I C S B F')).
      + unfold with_current. rewrite C. destruct t as [ti l]; cbn in T; subst ti. cbn [t_loc].
        assert (P := Hplug p l Ht l s ltac:(congruence)).
        destruct (pf_exec p l s) as [s'|e|q|] eqn:E; cbn.
        * destruct P as (P1 & P2 & f1 & f2 & r' & E1 & E2 & G). rewrite <- P1 in *. split; [rewrite E1, E2; now apply sh_same|].
          repeat split; try lia. exact P2.
        * destruct P as [k ->]. exists (LTok (TFun (FPlugin p)) l). split; [exact Ht|]. now cbn.
        * intros Hs. destruct (Htotal Hs p l Ht) as [_ K]. specialize (K l s ltac:(congruence)). now rewrite E in K.
        * intros Hs. destruct (Htotal Hs p l Ht) as [_ K]. specialize (K l s ltac:(congruence)). now rewrite E in K.
    - unfold var_string. destruct (get_variable v (f :: r)) as [x|]; cbn.
      + destruct x; cbn; try (exists t; rewrite T; split; [exact Ht|]; cbn; split; [tauto|reflexivity]).
        unfold emit. rewrite S. cbn. now apply moved_same with f; [|apply printed_grown, printed_out|].
      + exists t; rewrite T; split; [exact Ht|]; cbn; split; [tauto|reflexivity].
  Qed.
End Exec.

Lemma grown_trans f g k : grown f g -> grown g k -> grown f k.
Proof.
  intros (A & [x B] & [y C]) (D & [x' E] & [y' F]). split; [congruence|].
  split; [exists (x ++ x'); rewrite E, B | exists (y ++ y'); rewrite F, C]; now rewrite app_assoc.
Qed.

(** ** The stack above the base frame *)
Definition colon_named (f : frame) : Prop := In c_colon (fr_name f).
Definition based (b : frame) (st : list frame) : Prop :=
  exists top b', st = top ++ [b'] /\ grown b b' /\ Forall colon_named top.
Lemma based_shape b st st' : ~ In c_colon (fr_name b) -> based b st -> shape st st' -> based b st'.
Proof.
  intros NC (top & b' & E & G & F) S. destruct S as [st nf (_ & _ & Hn)|a a' q Ga|a c c' q HC Gc].
  - exists (nf :: top), b'. rewrite E. repeat split; try apply G. now constructor.
  - destruct top as [|x top]; cbn in E; injection E as -> ->.
    + exists [], a'. repeat split; try constructor; [| |]; apply (grown_trans _ b' _ G Ga).
    + inversion F; subst. exists (a' :: top), b'. repeat split; try apply G. constructor; [|assumption].
      unfold colon_named. destruct Ga as (-> & _). assumption.
  - destruct top as [|x top]; cbn in E; injection E as -> E; [discriminate E|]. inversion F as [|? ? F1 F2]; subst.
    destruct top as [|y top]; cbn in E; injection E as -> ->.
    + exists [], c'. repeat split; try constructor; [| |]; apply (grown_trans _ b' _ G (printed_grown _ _ Gc)).
    + inversion F2; subst. exists (c' :: top), b'. repeat split; try apply G. constructor; [|assumption].
      unfold colon_named. destruct Gc as (-> & _). assumption.
Qed.
Lemma based_nonempty b st : based b st -> st <> [].
Proof. intros (top & b' & -> & _). now destruct top. Qed.
Lemma based_self b : based b [b].
Proof. exists [], b. repeat split; try constructor; apply grown_refl. Qed.

Section Run.
  Variable strict : Prop.
  Variable w : world.
  Hypothesis Hplug : plugins_of plugin_ok (w_toks w).
  Hypothesis Htotal : strict -> plugins_of plugin_total (w_toks w).
  Hypothesis Hsite : strict -> loops_ready (w_input w) (w_toks w).
  Variable b : frame.
  Hypothesis Hb : ~ In c_colon (fr_name b).

  Lemma run_all_ok n k : forall s, based b (sc_stack s) -> (sc_idx s <= length (w_toks w))%nat ->
    (strict -> (k + sc_idx s > length (w_toks w))%nat /\ (n > length (w_toks w))%nat) ->
    allowed strict w (fun s' => based b (sc_stack s') /\ sc_idx s' = length (w_toks w) /\ sec_ext s s') (run_all k n w s).
  Proof.
    induction k as [|k IH]; intros s O B F; cbn [run_all].
    - cbn. intros Hs. specialize (F Hs). lia.
    - destruct (next_token w s) as [[t s1]|] eqn:N.
      + destruct (next_some _ _ _ _ N) as (-> & C & B').
        assert (A := exec_ok strict w Hplug Htotal Hsite n t _ C (based_nonempty _ _ O) B' ltac:(intros Hs; specialize (F Hs); lia)).
        destruct (exec n w t (set_idx (S (sc_idx s)) s)) as [s2|e|p|]; cbn [bind]; try exact A.
        cbn in A. destruct A as (Sh & I1 & I2 & E). cbn in I1.
        generalize (IH s2 (based_shape _ _ _ Hb O Sh) I2 ltac:(intros Hs; specialize (F Hs); lia)).
        apply allowed_mono. intros s' (Q1 & Q2 & Q3). split; [exact Q1|]. split; [exact Q2|].
        apply (sec_ext_trans _ s2); [exact E|exact Q3].
      + cbn. split; [exact O|]. split; [|exact (ex_intro _ [] (eq_sym (app_nil_r _)))].
        unfold next_token in N. destruct (nth_error _ _) eqn:Q; [discriminate|]. apply nth_error_None in Q. lia.
  Qed.
  Lemma run_ok s : based b (sc_stack s) -> sc_idx s = O ->
    allowed strict w (fun s' => based b (sc_stack s') /\ sc_idx s' = length (w_toks w) /\ sec_ext s s') (run w s).
  Proof. intros O I0. apply run_all_ok; [exact O|lia|]. intros _. lia. Qed.
End Run.
