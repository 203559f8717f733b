(** RenameFacts.v -- the names of variables do not matter (C89). *)

From Coq Require Import String List NArith ZArith Bool Lia.
From Verif Require Import Text TextFacts Utf8 Json Base Syntax Parse Tree Interp Build SpecTemplate SpecGrammar SpecScope SpecPage SpecTree SpecSite SpecLocal SpecRename.
From Verif Require Import InterpFacts ScopeFacts TreeFacts GrammarFacts SiteFacts ViewFacts LocalFacts.
Import ListNotations.

(** ** Names *)
Lemma dotted_inj a b p q : Forall (fun k => ~ In c_dot k) (a :: p) -> Forall (fun k => ~ In c_dot k) (b :: q) -> dotted a p = dotted b q -> a = b /\ p = q.
Proof.
  intros F G E. inversion F; inversion G; subst. pose proof (split_dotted p a) as S. rewrite E, (split_dotted q b) in S by assumption.
  assert (X : (b, q) = (a, p)) by (apply S; assumption). injection X as -> ->. now split.
Qed.
Definition heads : list text := lit "for" :: lit "ifdefined" :: map cmp_name [CEq; CNe; CGt; CGe; CLt; CLe].
Lemma heads_colon k : In k heads -> ~ In c_colon k.
Proof. intros I. unfold heads in I. cbn [map In] in I. repeat (destruct I as [<-|I]; [vm_compute; intuition discriminate|]). destruct I. Qed.
Lemma idents_colon k : In k builtin_names -> ~ In c_colon k.
Proof. intros I. unfold builtin_names in I. cbn [map In app] in I. repeat (destruct I as [<-|I]; [vm_compute; intuition discriminate|]). destruct I. Qed.
Lemma head_starts l k x : ~ In c_colon l -> ~ In c_colon k -> (starts_with (l ++ [c_colon]) (k ++ [c_colon] ++ x) = true <-> l = k).
Proof.
  intros A B. rewrite starts_with_spec. split; [|intros ->; exists x; now rewrite <- app_assoc].
  intros (r & E). rewrite <- app_assoc in E. revert k B E. induction l as [|c l IH]; intros k B E; destruct k as [|d k]; cbn [app] in E; [reflexivity| | |].
  - injection E as E _. destruct B. left. exact E.
  - injection E as E _. destruct A. now left.
  - injection E as -> E. f_equal. apply IH; [intros I; apply A; now right|intros I; apply B; now right|exact E].
Qed.

Section Run.
  Variable R : text -> text -> Prop.
  Hypothesis OO : one_to_one R.
  Definition bound (k k' : text) : Prop := name_change R k k' \/ (k' = k /\ (k = lit "env" \/ k = lit "self")).
  Definition vars_rel : list (text * value) -> list (text * value) -> Prop := Forall2 (fun x x' => snd x' = snd x /\ bound (fst x) (fst x')).
  Definition block_rel (f f' : frame) : Prop :=
    fr_out f' = fr_out f /\ vars_rel (fr_vars f) (fr_vars f') /\
    ((exists l, fr_name f = lit "begin:" ++ l /\ fr_name f' = fr_name f) \/
     (exists k x x', In k heads /\ fr_name f = k ++ [c_colon] ++ x /\ fr_name f' = k ++ [c_colon] ++ x')).
  Definition base_rel (f f' : frame) : Prop := fr_out f' = fr_out f /\ vars_rel (fr_vars f) (fr_vars f') /\ fr_name f = lit "base" /\ fr_name f' = lit "base".
  Inductive stack_rel : list frame -> list frame -> Prop :=
  | sr_base f f' : base_rel f f' -> stack_rel [f] [f']
  | sr_push f f' r r' : block_rel f f' -> stack_rel r r' -> stack_rel (f :: r) (f' :: r').
  Definition scope_rel (s s' : scope) : Prop := sc_idx s' = sc_idx s /\ stack_rel (sc_stack s) (sc_stack s') /\ sc_secs s' = sc_secs s.

  Lemma change_bound v v' k k' : name_change R v v' -> bound k k' -> (k = v <-> k' = v').
  Proof.
    destruct OO as (O1 & O2 & O3). intros (a & a' & ks & -> & -> & F & Ra) B. inversion F as [|? ? F1 F']; subst. inversion F' as [|? ? F2 F3]; subst.
    destruct B as [(b & b' & js & -> & -> & G & Rb)|[-> K]].
    - inversion G as [|? ? G1 G']; subst. inversion G' as [|? ? G2 G3]; subst. split; intros E.
      + apply dotted_inj in E; [|now constructor|now constructor]. destruct E as [E ->]. f_equal. now apply (O1 _ _ _ _ Rb Ra).
      + apply dotted_inj in E; [|now constructor|now constructor]. destruct E as [E ->]. f_equal. now apply (O1 _ _ _ _ Rb Ra).
    - assert (N : forall n, In n [lit "env"; lit "self"] -> ~ In c_dot n).
      { intros n I. cbn [In] in I. destruct I as [<-|[<-|[]]]; vm_compute; intuition discriminate. }
      assert (Q : forall n, In n [lit "env"; lit "self"] -> (a = n <-> a' = n) -> (n = dotted a ks <-> n = dotted a' ks)).
      { intros n I A. split; intros E; change n with (dotted n []) in E at 1; (apply dotted_inj in E; [|now constructor; [apply N|constructor]|now constructor]);
          destruct E as [E <-]; cbn [dotted]; symmetry; [apply A|apply A]; now symmetry. }
      destruct K as [-> | ->]; apply Q; try (cbn; tauto); [now apply O2|now apply O3].
  Qed.
  Lemma assoc_rel v v' : name_change R v v' -> forall vs vs', vars_rel vs vs' -> assoc v' vs' = assoc v vs.
  Proof.
    intros C. induction 1 as [|[k x] [k' x'] vs vs' [E B] F IH]; [reflexivity|]. cbn [assoc fst snd] in *. subst x'.
    pose proof (change_bound _ _ _ _ C B) as Q. destruct (text_eqb k v) eqn:X, (text_eqb k' v') eqn:X'; try reflexivity; try exact IH.
    - apply text_eqb_eq in X. apply text_eqb_neq in X'. destruct X'. now apply Q.
    - apply text_eqb_neq in X. apply text_eqb_eq in X'. destruct X. now apply Q.
  Qed.
  Lemma stack_vars st st' : stack_rel st st' -> Forall2 (fun f f' => vars_rel (fr_vars f) (fr_vars f')) st st'.
  Proof. induction 1 as [f f' (_ & V & _)|f f' r r' (_ & V & _) S IH]; repeat constructor; assumption. Qed.
  Lemma get_rel v v' st st' : name_change R v v' -> stack_rel st st' -> get_variable v' st' = get_variable v st.
  Proof.
    intros (a & a' & ks & -> & -> & F & Ra) S. apply stack_vars in S. inversion F as [|? ? F1 F']; subst. inversion F' as [|? ? F2 F3]; subst.
    unfold get_variable. rewrite !split_dotted by assumption. replace (lookup_frames a' st') with (lookup_frames a st); [reflexivity|].
    assert (C : name_change R a a') by (exists a, a', []; repeat split; try assumption; repeat constructor; assumption).
    induction S as [|f f' r r' V S IH]; [reflexivity|]. cbn [lookup_frames]. rewrite (assoc_rel _ _ C _ _ V). now destruct (assoc a (fr_vars f)).
  Qed.
  Lemma stack_length st st' : stack_rel st st' -> length st' = length st.
  Proof. induction 1 as [f f' B|f f' r r' B S IH]; [reflexivity|]. cbn [length]. now rewrite IH. Qed.
  Lemma out_rel o st st' f r : stack_rel st st' -> st = f :: r -> exists f' r', st' = f' :: r' /\ stack_rel (add_out o f :: r) (add_out o f' :: r').
  Proof.
    intros S E. destruct S as [g g' (B1 & B2 & B3)|g g' q q' (B1 & B2 & B3) S]; injection E as -> <-.
    - exists g', []. split; [reflexivity|]. constructor. split; [cbn [add_out fr_out]; now rewrite B1|]. split; [exact B2|exact B3].
    - exists g', q'. split; [reflexivity|]. constructor; [|exact S]. split; [cbn [add_out fr_out]; now rewrite B1|]. split; [exact B2|exact B3].
  Qed.
  Lemma emit_rel o s s' s1 : scope_rel s s' -> emit o s = Ok s1 -> exists s1', emit o s' = Ok s1' /\ scope_rel s1 s1'.
  Proof.
    intros (I & S & C). unfold emit. destruct (sc_stack s) as [|f r] eqn:E; [discriminate|]. intros H; injection H as <-.
    destruct (out_rel o _ _ f r S eq_refl) as (f' & r' & -> & S'). eexists. split; [reflexivity|]. now repeat split.
  Qed.
  Lemma output_rel o s s' s1 : scope_rel s s' -> output o s = Ok s1 -> exists s1', output o s' = Ok s1' /\ scope_rel s1 s1'.
  Proof.
    intros (I & S & C). unfold output. destruct (sc_stack s) as [|f r] eqn:E; [discriminate|]. intros H; injection H as <-.
    destruct (out_rel o _ _ f r S eq_refl) as (f' & r' & -> & S'). eexists. split; [reflexivity|]. now repeat split.
  Qed.
  Lemma idx_rel i s s' : scope_rel s s' -> scope_rel (set_idx i s) (set_idx i s').
  Proof. intros (I & S & C). now repeat split. Qed.
  Lemma push_rel f f' s s' : block_rel f f' -> scope_rel s s' -> scope_rel (push_frame f s) (push_frame f' s').
  Proof. intros B (I & S & C). split; [exact I|]. split; [now constructor|exact C]. Qed.
  Lemma head_frame k x x' : In k heads -> block_rel (new_frame (k ++ [c_colon] ++ x)) (new_frame (k ++ [c_colon] ++ x')).
  Proof. intros I. split; [reflexivity|]. split; [constructor|]. right. now exists k, x, x'. Qed.

  Variables (h : host) (n : node) (toks toks' : list ltoken).
  Let w := World h n toks.
  Let w' := World h n toks'.
  Definition tok_rel (t t' : ltoken) : Prop := tag_change R (t_inner t) (t_inner t') /\ forall l, t_inner t = TFun (FEnd l false) -> In l builtin_names.
  Hypothesis Toks : Forall2 tok_rel toks toks'.
  Lemma toks_length : length toks' = length toks.
  Proof. clear - Toks. induction Toks as [|t t' l l' T F IH]; [reflexivity|]. cbn [length]. now rewrite (IH F). Qed.
  Lemma nth_rel i : match nth_error toks i, nth_error toks' i with Some t, Some t' => tok_rel t t' | None, None => True | _, _ => False end.
  Proof. clear - Toks. revert i. induction Toks as [|t t' l l' T F IH]; intros [|i]; cbn; auto. exact (IH F i). Qed.
  Lemma next_rel s s' t s1 : scope_rel s s' -> next_token w s = Some (t, s1) -> exists t' s1', next_token w' s' = Some (t', s1') /\ tok_rel t t' /\ scope_rel s1 s1'.
  Proof.
    intros S. unfold next_token. cbn [w w_toks w']. destruct S as (I & S & C). rewrite I. pose proof (nth_rel (sc_idx s)) as N.
    destruct (nth_error toks (sc_idx s)); [|discriminate]. destruct (nth_error toks' (sc_idx s)); [|contradiction]. intros E; injection E as <- <-.
    eexists _, _. split; [reflexivity|]. split; [exact N|]. apply idx_rel. now repeat split.
  Qed.
  Lemma next_end s s' : scope_rel s s' -> next_token w s = None -> next_token w' s' = None.
  Proof.
    intros (I & S & C). unfold next_token. cbn [w w_toks w']. rewrite I. pose proof (nth_rel (sc_idx s)) as N.
    destruct (nth_error toks (sc_idx s)); [discriminate|]. now destruct (nth_error toks' (sc_idx s)).
  Qed.
  Lemma current_rel s s' k k' s1 : scope_rel s s' -> (forall l l', k l = Ok s1 -> exists s1', k' l' = Ok s1' /\ scope_rel s1 s1') ->
    with_current w s k = Ok s1 -> exists s1', with_current w' s' k' = Ok s1' /\ scope_rel s1 s1'.
  Proof.
    intros (I & S & C) K. unfold with_current, current. cbn [w w_toks w']. rewrite I. destruct (sc_idx s) as [|i]; [discriminate|]. pose proof (nth_rel i) as N.
    destruct (nth_error toks i); [|discriminate]. destruct (nth_error toks' i); [|contradiction]. apply K.
  Qed.
  Lemma located_rel s s' r r' s1 : scope_rel s s' -> (r = Ok s1 -> exists s1', r' = Ok s1' /\ scope_rel s1 s1') ->
    with_current w s (fun l => map_err (tb l) r) = Ok s1 -> exists s1', with_current w' s' (fun l => map_err (tb l) r') = Ok s1' /\ scope_rel s1 s1'.
  Proof.
    intros S K. apply current_rel; [exact S|]. intros l l' E. destruct r; try discriminate. injection E as ->. destruct (K eq_refl) as (s1' & -> & Q). now exists s1'.
  Qed.
  Lemma fn_name_rel t t' : tok_rel t t' -> token_fn_name t' = token_fn_name t.
  Proof. intros [T _]. unfold token_fn_name. destruct T; reflexivity. Qed.

  Definition steps_rel (ex ex' : ltoken -> scope -> xres scope) : Prop :=
    forall t t' s s' s1, tok_rel t t' -> scope_rel s s' -> ex t s = Ok s1 -> exists s1', ex' t' s' = Ok s1' /\ scope_rel s1 s1'.
  Section Steps.
    Variables ex ex' : ltoken -> scope -> xres scope.
    Hypothesis Ex : steps_rel ex ex'.
    Lemma scope_length s s' : scope_rel s s' -> length (sc_stack s') = length (sc_stack s).
    Proof. intros (_ & S & _). now apply stack_length. Qed.
    Lemma block_steps ht e e' k : forall s s' s1, scope_rel s s' -> run_block ex w ht e k s = Ok s1 -> exists s1', run_block ex' w' ht e' k s' = Ok s1' /\ scope_rel s1 s1'.
    Proof.
      induction k as [|k IH]; intros s s' s1 S; cbn [run_block]; rewrite (scope_length _ _ S); destruct (Nat.leb _ _); try (intros E; injection E as <-; now exists s'); try discriminate.
      destruct (next_token w s) as [[t s2]|] eqn:N; [|discriminate]. destruct (next_rel _ _ _ _ S N) as (t' & s2' & -> & T & S2).
      destruct (ex t s2) as [s3| | |] eqn:E; cbn [bind]; try discriminate. destruct (Ex _ _ _ _ _ T S2 E) as (s3' & -> & S3). cbn [bind]. now apply IH.
    Qed.
    Lemma cond_steps ht e e' k : forall c s s' s1, scope_rel s s' -> run_cond ex w ht e k c s = Ok s1 -> exists s1', run_cond ex' w' ht e' k c s' = Ok s1' /\ scope_rel s1 s1'.
    Proof.
      induction k as [|k IH]; intros c s s' s1 S; cbn [run_cond]; rewrite (scope_length _ _ S); destruct (Nat.leb _ _); try (intros E; injection E as <-; now exists s'); try discriminate.
      destruct (next_token w s) as [[t s2]|] eqn:N; [|discriminate]. destruct (next_rel _ _ _ _ S N) as (t' & s2' & -> & T & S2).
      rewrite (fn_name_rel _ _ T). destruct (token_fn_name t) as [nm| | |]; cbn [bind]; try discriminate. rewrite (scope_length _ _ S2).
      destruct (c || _); [|now apply IH]. destruct (ex t s2) as [s3| | |] eqn:E; cbn [bind]; try discriminate. destruct (Ex _ _ _ _ _ T S2 E) as (s3' & -> & S3). cbn [bind]. now apply IH.
    Qed.
    Lemma for_steps v v' way e e' vs : name_change R v v' -> forall s s' s1, scope_rel s s' -> for_loop ex w v way e vs s = Ok s1 -> exists s1', for_loop ex' w' v' way e' vs s' = Ok s1' /\ scope_rel s1 s1'.
    Proof.
      intros C. induction vs as [|x vs IH]; intros s s' s1 S; cbn [for_loop]; [intros E; injection E as <-; now exists s'|]. cbn [w w' w_toks]. fold w w'. rewrite toks_length.
      assert (S2 : scope_rel (push_frame (add_var v x (new_frame (lit "for:" ++ v))) (set_idx way s)) (push_frame (add_var v' x (new_frame (lit "for:" ++ v'))) (set_idx way s'))).
      { apply push_rel; [|now apply idx_rel]. split; [reflexivity|]. split; [constructor; [split; [reflexivity|now left]|constructor]|]. right. exists (lit "for"), v, v'. split; [now left|]. now split. }
      assert (L : length (sc_stack (set_idx way s')) = length (sc_stack (set_idx way s))) by (apply scope_length; now apply idx_rel). rewrite L.
      destruct (run_block ex w _ _ _ _) as [s3| | |] eqn:E; cbn [bind]; try discriminate. destruct (block_steps _ _ e' _ _ _ _ S2 E) as (s3' & -> & S3). cbn [bind]. now apply IH.
    Qed.
    Lemma string_rel v v' s s' x : name_change R v v' -> scope_rel s s' -> string_var v s = Ok x -> string_var v' s' = Ok x.
    Proof.
      intros C (_ & S & _). unfold string_var. rewrite (get_rel _ _ _ _ C S). destruct (get_variable v (sc_stack s)) as [y|]; [|discriminate]. destruct (as_str y); cbn [ok_or]; [auto|discriminate].
    Qed.
    Lemma input_rel a a' st st' : input_change R a a' -> stack_rel st st' -> eval_input a' st' = eval_input a st.
    Proof. intros C S. destruct C as [v v' C|x|z]; cbn [eval_input]; [now rewrite (get_rel _ _ _ _ C S)|reflexivity|reflexivity]. Qed.
    Lemma end_rel l c s s' s1 : (c = false -> In l builtin_names) -> scope_rel s s' -> exec_end l c s = Ok s1 -> exists s1', exec_end l c s' = Ok s1' /\ scope_rel s1 s1'.
    Proof.
      intros Hl (I & S & C). unfold exec_end. destruct S as [f f' (B1 & B2 & B3 & B4)|f f' r r' (B1 & B2 & B3) S].
      - rewrite B3. destruct c.
        + destruct (text_eqb (lit "base") (lit "begin:" ++ l)) eqn:X; [apply text_eqb_eq in X; discriminate X|discriminate].
        + destruct (starts_with (l ++ [c_colon]) (lit "base")) eqn:X; [|discriminate]. apply starts_with_spec in X. destruct X as (q & X).
          assert (Y : In c_colon (lit "base")) by (rewrite X; apply in_or_app; left; apply in_or_app; right; now left). vm_compute in Y. exfalso. intuition discriminate.
      - assert (Sr : scope_rel (set_stack r s) (set_stack r' s')) by now repeat split.
        destruct c.
        + assert (En : text_eqb (fr_name f') (lit "begin:" ++ l) = text_eqb (fr_name f) (lit "begin:" ++ l)).
          { destruct B3 as [(x & _ & ->)|(k & x & x' & Ik & -> & ->)]; [reflexivity|]. assert (N : forall z, text_eqb (k ++ [c_colon] ++ z) (lit "begin:" ++ l) = false); [|now rewrite !N].
            intros z. apply text_eqb_neq. intros X. unfold heads in Ik. cbn [map In] in Ik. repeat (destruct Ik as [<-|Ik]; [discriminate X|]). destruct Ik. }
          rewrite En, B1. destruct (text_eqb (fr_name f) (lit "begin:" ++ l)); [|intros X; discriminate X]. destruct (output (fr_out f) (set_stack r s)) as [s2| | |] eqn:O; cbn [bind]; try discriminate.
          destruct (output_rel _ _ _ _ Sr O) as (s2' & -> & (I2 & S2 & C2)). cbn [bind]. intros E; injection E as <-. eexists. split; [reflexivity|]. split; [exact I2|]. split; [exact S2|]. cbn. now rewrite C2.
        + assert (En : starts_with (l ++ [c_colon]) (fr_name f') = starts_with (l ++ [c_colon]) (fr_name f)).
          { destruct B3 as [(x & _ & ->)|(k & x & x' & Ik & -> & ->)]; [reflexivity|]. apply eq_true_iff_eq. rewrite !head_starts; [reflexivity|..]; try (now apply idents_colon, Hl); now apply heads_colon. }
          rewrite En, B1. destruct (starts_with (l ++ [c_colon]) (fr_name f)); [|intros X; discriminate X]. now apply output_rel.
    Qed.
    Lemma else_rel s s' s1 : scope_rel s s' -> exec_else s = Ok s1 -> exists s1', exec_else s' = Ok s1' /\ scope_rel s1 s1'.
    Proof.
      intros Sc. pose proof Sc as (I & S & C). unfold exec_else.
      assert (Q : forall f r f' r', sc_stack s = f :: r -> sc_stack s' = f' :: r' -> starts_with (lit "if") (fr_name f') = starts_with (lit "if") (fr_name f)).
      { intros f r f' r' E E'. rewrite E, E' in S. inversion S as [? ? B|? ? ? ? B _]; subst; destruct B as (_ & _ & B).
        { destruct B as [-> ->]. reflexivity. }
        destruct B as [(x & _ & ->)|(k & x & x' & Ik & -> & ->)]; [reflexivity|].
        unfold heads in Ik. cbn [map In] in Ik. repeat (destruct Ik as [<-|Ik]; [reflexivity|]). destruct Ik. }
      destruct (sc_stack s) as [|f r]; [discriminate|]. destruct (sc_stack s') as [|f' r']; [inversion S|]. rewrite (Q f r f' r' eq_refl eq_refl).
      destruct (starts_with (lit "if") (fr_name f)); [|intros X; discriminate X]. intros E; injection E as <-. now exists s'.
    Qed.
    Lemma insert_rel l s s' s1 : scope_rel s s' -> exec_insert l s = Ok s1 -> exists s1', exec_insert l s' = Ok s1' /\ scope_rel s1 s1'.
    Proof.
      intros (I & S & C). unfold exec_insert. rewrite C. destruct (sc_stack s) as [|f r] eqn:E; [discriminate|]. destruct (assoc l (sc_secs s)) as [o|]; [|discriminate]. intros H; injection H as <-.
      destruct (out_rel o _ _ f r S eq_refl) as (f' & r' & -> & S'). eexists. split; [reflexivity|]. now repeat split.
    Qed.
    Lemma import_rel v v' file s s' s1 : name_change R v v' -> scope_rel s s' -> exec_import w v file s = Ok s1 -> exists s1', exec_import w' v' file s' = Ok s1' /\ scope_rel s1 s1'.
    Proof.
      intros Cv (I & S & C). unfold exec_import. cbn [w w' w_input]. destruct (get_at_path n file) as [[nm b [] mt sr|]|]; try discriminate.
      assert (V : forall f f', vars_rel (fr_vars f) (fr_vars f') -> assoc v' (fr_vars f') = assoc v (fr_vars f)) by (intros f f'; now apply assoc_rel).
      assert (A : forall f f', vars_rel (fr_vars f) (fr_vars f') -> vars_rel (fr_vars (add_var v v0 f)) (fr_vars (add_var v' v0 f'))).
      { intros f f' F. cbn [add_var fr_vars]. apply Forall2_app; [exact F|]. constructor; [split; [reflexivity|now left]|constructor]. }
      inversion S as [f f' (B1 & B2 & B3) E E'|f f' r r' (B1 & B2 & B3) S' E E']; rewrite (V _ _ B2); destruct (assoc v (fr_vars f)); try discriminate; intros H; injection H as <-; (eexists; split; [reflexivity|]);
        (split; [exact I|]; split; [|exact C]); cbn [set_stack sc_stack].
      - constructor. split; [exact B1|]. split; [now apply A|exact B3].
      - constructor; [|exact S']. split; [exact B1|]. split; [now apply A|exact B3].
    Qed.
    Lemma key_rel o o' vs : sort_change R o o' -> match o' with Some k => sort_by (sort_key k) vs | None => vs end = match o with Some k => sort_by (sort_key k) vs | None => vs end.
    Proof.
      destruct o as [k|], o' as [k'|]; cbn [sort_change]; try contradiction; [|reflexivity]. intros (a & a' & ks & -> & -> & F & _). inversion F as [|? ? F1 F']; subst. inversion F' as [|? ? F2 F3]; subst.
      assert (E : sort_key (dotted a' ks) = sort_key (dotted a ks)); [|now rewrite E]. unfold sort_key. now rewrite !split_dotted by assumption.
    Qed.
    Lemma fn_steps f f' s s' s1 : tag_change R (TFun f) (TFun f') -> (forall l, f = FEnd l false -> In l builtin_names) -> scope_rel s s' ->
      exec_fn ex w f s = Ok s1 -> exists s1', exec_fn ex' w' f' s' = Ok s1' /\ scope_rel s1 s1'.
    Proof.
      intros T Hl S. pose proof S as (I & St & Sec). unfold exec_fn. inversion T; subst; cbn [w w' w_toks w_host]; fold w w'; rewrite ?toks_length.
      - intros E; injection E as <-. eexists. split; [reflexivity|]. apply push_rel; [|exact S]. split; [reflexivity|]. split; [constructor|]. left. eexists. now split.
      - apply located_rel; [exact S|]. apply end_rel; [|exact S]. intros ->. now apply Hl.
      - apply located_rel; [exact S|]. now apply else_rel.
      - apply located_rel; [exact S|]. now apply insert_rel.
      - apply located_rel; [exact S|]. unfold exec_date. destruct (h_date h) as [d|]; [|discriminate]. destruct (string_var v s) as [x| | |] eqn:E; cbn [bind]; try discriminate.
        match goal with X : name_change R v _ |- _ => rewrite (string_rel _ _ _ _ _ X S E) end. cbn [bind]. destruct (d x f0); [|discriminate]. now apply output_rel.
      - apply located_rel; [exact S|]. destruct (string_var v s) as [x| | |] eqn:E; cbn [bind]; try discriminate. match goal with X : name_change R v _ |- _ => rewrite (string_rel _ _ _ _ _ X S E) end. cbn [bind]. now apply output_rel.
      - apply located_rel; [exact S|]. destruct (string_var v s) as [x| | |] eqn:E; cbn [bind]; try discriminate. match goal with X : name_change R v _ |- _ => rewrite (string_rel _ _ _ _ _ X S E) end. cbn [bind]. now apply output_rel.
      - apply current_rel; [exact S|]. intros l l'. match goal with X : name_change R v _ |- _ => rewrite (get_rel _ _ _ _ X St), (stack_length _ _ St) end. apply cond_steps. apply push_rel; [|exact S]. apply (head_frame (lit "ifdefined")). right. now left.
      - apply located_rel; [exact S|]. now apply import_rel.
      - apply current_rel; [exact S|]. intros l l'. match goal with X : input_change R a _, Y : input_change R b _ |- _ => rewrite (input_rel _ _ _ _ X St), (input_rel _ _ _ _ Y St), (stack_length _ _ St) end.
        destruct (eval_input a (sc_stack s)); cbn [ok_or bind]; [|discriminate]. destruct (eval_input b (sc_stack s)); cbn [ok_or bind]; [|discriminate].
        apply cond_steps. apply push_rel; [|exact S]. unfold if_frame_name. apply head_frame. unfold heads. right. right. apply in_map. destruct c; cbn; tauto.
      - apply current_rel; [exact S|]. intros l l'. unfold for_values. cbn [w_input w w' ff_type ff_src ff_var]. fold w w'. rewrite I.
        match goal with |- bind (map_err _ ?x) _ = _ -> _ => destruct x as [vs| | |] eqn:E end; cbn [map_err bind]; try discriminate.
        assert (Sel : select (ForFn v' s0 ty sk li so' d) vs = select (ForFn v s0 ty sk li so d) vs) by (unfold select; cbn [ff_sort ff_desc ff_skip ff_limit]; match goal with X : sort_change R _ _ |- _ => now rewrite (key_rel _ _ vs X) end).
        destruct ty; try contradiction; rewrite E; cbn [map_err bind]; rewrite Sel; now apply for_steps.
      - apply current_rel; [exact S|]. intros l l'. unfold for_values. cbn [w_input w w' ff_type ff_src ff_var]. fold w w'. rewrite I.
        match goal with X : name_change R s0 _ |- _ => rewrite (get_rel _ _ _ _ X St) end. destruct (get_variable s0 (sc_stack s)) as [y|]; [|discriminate]. destruct (as_array y) as [vs|]; cbn [ok_or map_err bind]; [|discriminate].
        assert (Sel : select (ForFn v' s'0 SrcVar sk li so' d) vs = select (ForFn v s0 SrcVar sk li so d) vs) by (unfold select; cbn [ff_sort ff_desc ff_skip ff_limit]; match goal with X : sort_change R _ _ |- _ => now rewrite (key_rel _ _ vs X) end).
        rewrite Sel. now apply for_steps.
    Qed.
  End Steps.
  Lemma exec_steps k : steps_rel (exec k w) (exec k w').
  Proof.
    induction k as [|k IH]; intros t t' s s' s1 T S; cbn [exec]; [discriminate|]. pose proof T as [C Hl]. destruct (t_inner t) as [r|f|v] eqn:Et.
    - inversion C; subst. now apply emit_rel.
    - destruct (t_inner t') as [|f'|] eqn:Et'; try solve [inversion C]. apply fn_steps; [exact IH|exact C| |exact S]. intros l ->. now apply Hl.
    - inversion C as [|? v' Cv| | | | | | | | | | | |]; subst. unfold var_string. destruct S as (I & St & Sec). rewrite (get_rel _ _ _ _ Cv St). assert (S : scope_rel s s') by now repeat split.
      destruct (get_variable v (sc_stack s)) as [[]|]; try discriminate. now apply emit_rel.
  Qed.
  Lemma run_steps s s' s1 : scope_rel s s' -> Interp.run w s = Ok s1 -> exists s1', Interp.run w' s' = Ok s1' /\ scope_rel s1 s1'.
  Proof.
    unfold Interp.run. cbn [w w' w_toks]. fold w w'. rewrite toks_length. generalize (S (length toks)) at 1 3. intros k. generalize (S (length toks)). intros m. revert s s'.
    induction k as [|k IH]; intros s s' S; cbn [run_all]; [discriminate|]. destruct (next_token w s) as [[t s2]|] eqn:N.
    - destruct (next_rel _ _ _ _ S N) as (t' & s2' & -> & T & S2). destruct (exec m w t s2) as [s3| | |] eqn:E; cbn [bind]; try discriminate.
      destruct (exec_steps m _ _ _ _ _ T S2 E) as (s3' & -> & S3). cbn [bind]. now apply IH.
    - rewrite (next_end _ _ S N). intros E; injection E as <-. now exists s'.
  Qed.
End Run.

(** ** Tokens *)
Definition ren (t t' : list ltoken) : Prop := exists R, one_to_one R /\ Forall2 (tok_rel R) t t'.
Definition ends_ok (k : token) : Prop := forall l, k = TFun (FEnd l false) -> In l builtin_names.
Lemma raw_ends s : Forall ends_ok (raw_part s).
Proof. destruct s; [constructor|]. constructor; [intros l E; discriminate E|constructor]. Qed.
Lemma denotes_ends ext ps g b k : loose_tag ext g b -> denotes ps g k -> ends_ok k.
Proof.
  intros L D l ->. inversion D as [|name pos named f B|]; subst. inversion B; subst. inversion L as [|? ? ? ? ? ? ? ? P]; subst. cbn in P. inversion P as [|? ? P1 P2]; subst. exact (proj1 P1).
Qed.
Lemma means_ends ext ps t ks : SpecGrammar.means ext ps t ks -> Forall ends_ok ks.
Proof.
  intros (l & r & L & T). revert ks T. induction L as [t r N|t s g w1 b w2 l r t' F B1 B2 G L IH]; intros ks T; inversion T; subst; [apply raw_ends|].
  apply Forall_app. split; [apply raw_ends|]. constructor; [eapply denotes_ends; eassumption|now apply IH].
Qed.
Lemma same_name v : name_change eq v v.
Proof.
  pose proof (split_char_dotted v) as E. pose proof (split_char_spec c_dot v) as F. destruct (split_char c_dot v) as [a ks]. destruct F as [F1 F2].
  exists a, a, ks. split; [exact E|]. split; [exact E|]. split; [now repeat constructor|reflexivity].
Qed.
Lemma same_input i : input_change eq i i.
Proof. destruct i; constructor. apply same_name. Qed.
Lemma same_sort o : sort_change eq o o.
Proof. destruct o; cbn; [apply same_name|exact Logic.I]. Qed.
Lemma same_func f : (forall p, f <> FPlugin p) -> tag_change eq (TFun f) (TFun f).
Proof.
  intros N. destruct f as [label custom|v fmt| |label custom|v k|ff|v|v file|label|v|c a b|p]; try (constructor; auto using same_name, same_input; fail).
  - destruct ff as [v s ty sk li so d]. destruct ty; [apply tc_for_file; try discriminate; auto using same_name, same_sort|apply tc_for_file; try discriminate; auto using same_name, same_sort|apply tc_for_var; auto using same_name, same_sort].
  - now destruct (N p).
Qed.
Lemma same_tag ps g k : flat_table ps = [] -> denotes ps g k -> tag_change eq k k.
Proof.
  intros F D. destruct D as [v|name pos named f B|name pos named p g N (l1 & q & l2 & P & _) G].
  - constructor. apply same_name.
  - apply same_func. intros p ->. inversion B.
  - rewrite F in P. destruct l1; discriminate P.
Qed.
Lemma means_same ext ps t ks : flat_table ps = [] -> SpecGrammar.means ext ps t ks -> Forall (fun k => tag_change eq k k) ks.
Proof.
  intros F (l & r & _ & T). assert (W : forall s, Forall (fun k => tag_change eq k k) (raw_part s)) by (intros []; repeat constructor).
  induction T as [r|s g l r k ks D T IH]; [apply W|]. apply Forall_app. split; [apply W|]. constructor; [eapply same_tag; eassumption|exact IH].
Qed.
Lemma one_eq : one_to_one eq.
Proof. split; [intros a a' b b' <- <-; tauto|]. split; intros a a' <-; tauto. Qed.
Lemma toks_changed (R : text -> text -> Prop) toks toks' : Forall ends_ok (map t_inner toks) -> Forall2 (tag_change R) (map t_inner toks) (map t_inner toks') -> Forall2 (tok_rel R) toks toks'.
Proof.
  revert toks'. induction toks as [|t toks IH]; intros [|t' toks'] E C; inversion C; subst; constructor; inversion E; subst; [now split|now apply IH].
Qed.
Lemma no_functions (ps : list plugin) : Forall (fun p => pl_fns p = [] /\ pl_parsers p = []) ps -> flat_table (fns ps) = [].
Proof. induction 1 as [|p ps [E _] F IH]; [reflexivity|]. unfold flat_table, fns in *. cbn [map flat_map fst snd]. rewrite E. exact IH. Qed.
Lemma no_kinds (ps : list plugin) e : Forall (fun p => pl_fns p = [] /\ pl_parsers p = []) ps -> find_node_parser e ps = None.
Proof. intros F. unfold find_node_parser. replace (flat_map pl_parsers ps) with (@nil node_parser); [reflexivity|]. induction F as [|p ps [_ E] F IH]; [reflexivity|]. cbn [flat_map]. now rewrite E, <- IH. Qed.

(** ** Pages *)
Definition first_ok (f : frame) : Prop := fr_name f = lit "base" /\ Forall (fun kv => fst kv = lit "env" \/ fst kv = lit "self") (fr_vars f).
Lemma first_rel (R : text -> text -> Prop) f : first_ok f -> stack_rel R [f] [f].
Proof.
  intros (N & V). constructor. split; [reflexivity|]. split; [|now split]. unfold vars_rel. induction V as [|kv l K V IH]; constructor; [|exact IH]. split; [reflexivity|]. right. now split.
Qed.
Lemma phase_rel (R : text -> text -> Prop) pr toks toks' f secs s : one_to_one R -> Forall2 (tok_rel R) toks toks' -> first_ok f -> phase pr toks [f] secs = Ok s ->
  exists s', phase pr toks' [f] secs = Ok s' /\ scope_rel R s s'.
Proof.
  intros O T F. unfold phase. destruct (pr_input pr) as [n|]; [|discriminate]. intros E. refine (run_steps R O _ _ _ _ T _ _ _ _ E). split; [reflexivity|]. split; [now apply first_rel|reflexivity].
Qed.
Lemma heads_not_base k x : In k heads -> k ++ [c_colon] ++ x <> lit "base".
Proof. intros I E. assert (C : In c_colon (lit "base")) by (rewrite <- E; apply in_or_app; right; now left). revert C. vm_compute. intuition discriminate. Qed.
Lemma base_alone (R : text -> text -> Prop) st st' f r : stack_rel R st st' -> st = f :: r -> is_base f = true -> r = [] /\ exists f', st' = [f'] /\ is_base f' = true /\ fr_out f' = fr_out f.
Proof.
  intros S E B. destruct S as [g g' (O & V & N & N')|g g' q q' (O & V & N) S]; injection E as -> <-.
  - split; [reflexivity|]. exists g'. split; [reflexivity|]. split; [|exact O]. unfold is_base. rewrite N'. reflexivity.
  - exfalso. unfold is_base in B. apply text_eqb_eq in B. destruct N as [(l & N & _)|(k & x & x' & I & N & _)]; rewrite N in B; [discriminate B|exact (heads_not_base _ _ I B)].
Qed.
Lemma stack_out (R : text -> text -> Prop) st st' f r : stack_rel R st st' -> st = f :: r -> exists f' r', st' = f' :: r' /\ fr_out f' = fr_out f.
Proof. intros S E. destruct S as [g g' (O & _)|g g' q q' (O & _) S]; injection E as -> <-; now do 2 eexists. Qed.
Lemma root_rel pr root root' base secs o : ren root root' -> first_ok base ->
  (let? s2 := phase pr root [base] secs in match sc_stack s2 with f2 :: _ => Ok (fr_out f2) | [] => Panic Pn_pop end) = Ok o ->
  (let? s2 := phase pr root' [base] secs in match sc_stack s2 with f2 :: _ => Ok (fr_out f2) | [] => Panic Pn_pop end) = Ok o.
Proof.
  intros (R & O & T) F. destruct (phase pr root [base] secs) as [s| | |] eqn:E; cbn [bind]; try discriminate. destruct (phase_rel _ _ _ _ _ _ _ O T F E) as (s' & -> & _ & S & _). cbn [bind].
  destruct (sc_stack s) as [|f r] eqn:K; [discriminate|]. destruct (stack_out _ _ _ _ _ S eq_refl) as (f' & r' & -> & ->). auto.
Qed.
Section Pages.
  Variable F : Prop.
  Definition page_rel (t t' : list ltoken) : Prop := (t' = t /\ (F -> ren t t)) \/ ren t t'.
  Definition tmpl_rel (t t' : list ltoken) : Prop := t' = t \/ (F /\ ren t t').
  Lemma two_rel pr src toks toks' root root' first base o : page_rel toks toks' -> tmpl_rel root root' -> first_ok first -> first_ok base ->
    two_phases pr src toks root first base = Ok o -> two_phases pr src toks' root' first base = Ok o.
  Proof.
    intros P T F1 F2. assert (Q : ren toks toks' -> two_phases pr src toks root first base = Ok o -> two_phases pr src toks' root' first base = Ok o).
    { intros (R & O & Tk). unfold two_phases. destruct (phase pr toks [first] []) as [s| | |] eqn:E; cbn [bind]; try discriminate. destruct (phase_rel _ _ _ _ _ _ _ O Tk F1 E) as (s' & -> & _ & S & C). cbn [bind].
      destruct (sc_stack s) as [|f r] eqn:K; [discriminate|]. destruct (is_base f) eqn:B; [|discriminate]. destruct (base_alone _ _ _ _ _ S eq_refl B) as (-> & f' & -> & B' & _). rewrite B', C.
      destruct T as [->|[_ T]]; [auto|]. now apply root_rel. }
    destruct P as [[-> P]|P]; [|now apply Q]. destruct T as [->|[f T]]; [auto|]. apply Q. now apply P.
  Qed.
  Definition opt_rel (o o' : option (list ltoken)) : Prop := (o' = o /\ (F -> forall t, o = Some t -> ren t t)) \/ (F /\ exists t t', o = Some t /\ o' = Some t' /\ ren t t').
  Definition env_rel (e e' : env) : Prop := ev_vars e' = ev_vars e /\ opt_rel (ev_root e) (ev_root e') /\ opt_rel (ev_md e) (ev_md e') /\ (e' = e \/ F).
  Lemma opt_some o o' t : opt_rel o o' -> o = Some t -> exists t', o' = Some t' /\ tmpl_rel t t' /\ page_rel t t'.
  Proof.
    intros [[-> S]|(f & u & u' & -> & -> & U)] E.
    - exists t. split; [exact E|]. split; [now left|]. left. split; [reflexivity|]. intros f. now apply S.
    - injection E as <-. exists u'. split; [reflexivity|]. split; [now right|now right].
  Qed.
  Definition plain (pc : parsed) : Prop := match pc with PHtml t => ren t t | PCustom _ => False | _ => True end.
  Inductive nrel : node -> node -> Prop :=
  | nr_same name b pc mt s : (F -> plain pc) -> nrel (NFile name b pc mt s) (NFile name b pc mt s)
  | nr_html name b b' t t' mt s : ren t t' -> (is_template name -> F) -> last s [] = name -> nrel (NFile name b (PHtml t) mt s) (NFile name b' (PHtml t') mt s)
  | nr_dir name ch ch' s : Forall2 nrel ch ch' -> nrel (NDir name ch s) (NDir name ch' s).
  Inductive orel : node -> node -> Prop :=
  | or_file name b b' pc mt s : b' = b \/ (is_template (last s []) /\ is_template name) -> orel (NFile name b pc mt s) (NFile name b' pc mt s)
  | or_dir name ch ch' s : Forall2 orel ch ch' -> orel (NDir name ch s) (NDir name ch' s).
  Lemma nrel_name n n' : nrel n n' -> n_name n' = n_name n.
  Proof. now intros []. Qed.
  Lemma orel_name n n' : orel n n' -> n_name n' = n_name n.
  Proof. now intros []. Qed.
  Lemma child_rel e e' n n' : env_rel e e' -> nrel n n' -> env_rel (env_child e n) (env_child e' n').
  Proof.
    intros (V & Er & Em & Q) N. unfold env_child. rewrite (nrel_name _ _ N).
    assert (T : is_template (n_name n) -> opt_rel (match n_parsed n with PHtml t => Some t | _ => None end) (match n_parsed n' with PHtml t => Some t | _ => None end) /\ (n_parsed n' = n_parsed n \/ F)).
    { intros Tm. destruct N as [name b pc mt s P|name b b' t t' mt s U K L|name ch ch' s D]; cbn [n_parsed n_name] in *.
      - split; [|now left]. left. split; [reflexivity|]. intros f t E. specialize (P f). destruct pc; try discriminate. injection E as ->. exact P.
      - split; [|right; now apply K]. right. split; [now apply K|]. now exists t, t'.
      - split; [|now left]. left. split; [reflexivity|]. discriminate. }
    destruct (text_eqb (n_name n) (lit "root.html")) eqn:E1; [|destruct (text_eqb (n_name n) (lit "md.html")) eqn:E2].
    - apply text_eqb_eq in E1. destruct (T (or_introl E1)) as [T1 T2]. repeat split; cbn [ev_vars ev_root ev_md]; auto. destruct T2 as [->|f]; [|now right]. destruct Q as [->|f]; [now left|now right].
    - apply text_eqb_eq in E2. destruct (T (or_intror E2)) as [T1 T2]. repeat split; cbn [ev_vars ev_root ev_md]; auto. destruct T2 as [->|f]; [|now right]. destruct Q as [->|f]; [now left|now right].
    - now repeat split.
  Qed.
  Lemma update_rel e e' ch ch' : env_rel e e' -> Forall2 nrel ch ch' -> env_rel (env_update e ch) (env_update e' ch').
  Proof. intros E H. unfold env_update. revert e e' E. induction H as [|n n' ch ch' N H IH]; intros e e' E; cbn [fold_left]; auto. apply IH. now apply child_rel. Qed.
  Definition base_ok (pr : processor) : Prop := forall b, pr_base pr = Some b -> fr_name b = lit "base" /\ Forall (fun kv => fst kv = lit "env") (fr_vars b).
  Lemma base_first pr b : base_ok pr -> pr_base pr = Some b -> first_ok b /\ forall v, first_ok (add_var (lit "self") v b).
  Proof.
    intros B E. destruct (B _ E) as [N V]. assert (W : Forall (fun kv : text * value => fst kv = lit "env" \/ fst kv = lit "self") (fr_vars b)) by (eapply Forall_impl; [|exact V]; cbn; tauto).
    split; [now split|]. intros v. split; [exact N|]. cbn [add_var fr_vars]. apply Forall_app. split; [exact W|]. constructor; [now right|constructor].
  Qed.
  Lemma html_rel pr e e' src t t' o : base_ok pr -> env_rel e e' -> page_rel t t' -> process_html pr e src t = Ok o -> process_html pr e' src t' = Ok o.
  Proof.
    intros B (_ & Er & _ & _) P. unfold process_html. destruct (ev_root e) as [root|] eqn:E; cbn [ok_or bind]; [|discriminate]. destruct (opt_some _ _ _ Er eq_refl) as (root' & -> & T & _). cbn [ok_or bind].
    destruct (pr_base pr) as [b|] eqn:Eb; [|discriminate]. destruct (base_first _ _ B Eb) as [F1 _]. destruct (two_phases pr src t root b b) as [x| | |] eqn:X; cbn [bind]; try discriminate.
    now rewrite (two_rel _ _ _ _ _ _ _ _ _ P T F1 F1 X).
  Qed.
  Lemma md_rel pr e e' src name m o : base_ok pr -> env_rel e e' -> process_markdown pr e src name m = Ok o -> process_markdown pr e' src name m = Ok o.
  Proof.
    intros B (_ & Er & Em & _). unfold process_markdown. destruct (ev_root e) as [root|] eqn:E; cbn [ok_or bind]; [|discriminate]. destruct (opt_some _ _ _ Er eq_refl) as (root' & -> & T & _). cbn [ok_or bind].
    destruct (ev_md e) as [mdt|] eqn:E'; cbn [ok_or bind]; [|discriminate]. destruct (opt_some _ _ _ Em eq_refl) as (mdt' & -> & _ & P). cbn [ok_or bind].
    destruct (pr_base pr) as [b|] eqn:Eb; [|discriminate]. destruct (base_first _ _ B Eb) as [F1 F2]. destruct (md_to_value m) as [v| | |]; cbn [bind]; try discriminate.
    destruct (two_phases pr src mdt root _ b) as [x| | |] eqn:X; cbn [bind]; try discriminate. now rewrite (two_rel _ _ _ _ _ _ _ _ _ P T (F2 v) F1 X).
  Qed.
  Lemma file_rel pr pr' e e' n n' o : pr_views (fun _ => True) pr pr' -> pr_meta pr' = pr_meta pr -> base_ok pr -> env_rel e e' -> nrel n n' -> is_file n = true -> build_node pr e n = Ok o ->
    exists o', build_node pr' e' n' = Ok o' /\ orel o o'.
  Proof.
    intros V M B E N K. assert (B' : base_ok pr') by (destruct V as (_ & Vb & _); unfold base_ok; now rewrite Vb).
    destruct N as [name b pc mt s P|name b b' t t' mt s U T L|name ch ch' s D]; [| |discriminate K]; cbn [build_node]; intros X.
    - exists o. assert (O : orel o o) by (unfold process_file in X; match type of X with bind ?x _ = _ => destruct x end; try discriminate; cbn [bind] in X; injection X as <-; constructor; now left).
      split; [|exact O]. revert X. unfold process_file. rewrite M. destruct (is_template_name name); [auto|]. destruct pc as [t|m|v|c| |]; auto.
      + destruct (process_html pr e s t) as [x| | |] eqn:H; cbn [map_err bind]; try discriminate.
        assert (H' : process_html pr e' s t = Ok x) by (eapply html_rel; [exact B|exact E| |exact H]; left; split; [reflexivity|exact P]).
        assert (H2 : process_html pr' e' s t = Ok x); [|now rewrite H2]. revert H'. unfold process_html. destruct (ev_root e'); cbn [ok_or bind]; [|discriminate]. replace (pr_base pr') with (pr_base pr) by (symmetry; apply V).
        destruct (pr_base pr); [|discriminate]. destruct (two_phases pr s t l f f) eqn:Tw; cbn [bind]; try discriminate. now rewrite (two_view _ _ _ _ _ _ _ _ _ V Logic.I Logic.I Tw).
      + destruct (process_markdown pr e s name m) as [x| | |] eqn:H; cbn [map_err bind]; try discriminate.
        assert (H' : process_markdown pr e' s name m = Ok x) by (eapply md_rel; [exact B|exact E|exact H]).
        assert (H2 : process_markdown pr' e' s name m = Ok x); [|now rewrite H2]. revert H'. unfold process_markdown. destruct (ev_root e'); cbn [ok_or bind]; [|discriminate]. destruct (ev_md e'); cbn [ok_or bind]; [|discriminate].
        replace (pr_base pr') with (pr_base pr) by (symmetry; apply V). destruct (pr_base pr); [|discriminate]. destruct (md_to_value m); cbn [bind]; try discriminate.
        match goal with |- bind ?y _ = _ -> _ => destruct y eqn:Tw end; cbn [bind]; try discriminate. now rewrite (two_view _ _ _ _ _ _ _ _ _ V Logic.I Logic.I Tw).
      + destruct E as (_ & _ & _ & [->|f]); [auto|]. destruct (P f).
    - revert X. unfold process_file. rewrite M. destruct (is_template_name name) eqn:Tn; cbn [bind].
      + intros X; injection X as <-. eexists. split; [reflexivity|]. cbn [po_name po_contents parsed_to_json]. constructor. right. rewrite L. unfold is_template_name in Tn. apply orb_true_iff in Tn. destruct Tn as [Tn|Tn]; apply text_eqb_eq in Tn; split; (now left) || now right.
      + destruct (process_html pr e s t) as [x| | |] eqn:H; cbn [map_err bind]; try discriminate.
        assert (H' : process_html pr e' s t' = Ok x) by (eapply html_rel; [exact B|exact E| |exact H]; now right).
        assert (Xc : exists y, po_contents x = Some y).
        { revert H. unfold process_html. destruct (ok_or (ev_root e) _); cbn [bind]; try discriminate. destruct (pr_base pr); [|discriminate]. destruct (two_phases _ _ _ _ _ _); cbn [bind]; try discriminate. intros X; injection X as <-. now eexists. }
        assert (H2 : process_html pr' e' s t' = Ok x).
        { revert H'. unfold process_html. destruct (ev_root e'); cbn [ok_or bind]; [|discriminate]. replace (pr_base pr') with (pr_base pr) by (symmetry; apply V).
          destruct (pr_base pr); [|discriminate]. destruct (two_phases pr s t' l f f) eqn:Tw; cbn [bind]; try discriminate. now rewrite (two_view _ _ _ _ _ _ _ _ _ V Logic.I Logic.I Tw). }
        rewrite H2. cbn [map_err bind]. intros X; injection X as <-. eexists. split; [reflexivity|]. destruct Xc as (y & ->). cbn [parsed_to_json]. constructor. now left.
  Qed.
  Lemma node_rel pr pr' n : forall e e' n' o, pr_views (fun _ => True) pr pr' -> pr_meta pr' = pr_meta pr -> base_ok pr -> env_rel e e' -> nrel n n' -> build_node pr e n = Ok o ->
    exists o', build_node pr' e' n' = Ok o' /\ orel o o'.
  Proof.
    induction n as [name b pc meta src|name ch src IH] using node_ind2; intros e e' n' o V M B E N X; [now apply (file_rel pr pr' e e' _ _ o V M B E N eq_refl)|].
    inversion N as [| |? ? ch' ? H]; subst. cbn [build_node] in *. pose proof (update_rel _ _ _ _ E H) as E'. revert X. generalize dependent (env_update e' ch'). generalize (env_update e ch). intros e1 e1' E'.
    destruct (map_res (build_node pr e1) ch) as [co| | |] eqn:Q; cbn [bind]; try discriminate. intros X; injection X as <-.
    assert (Z : exists co', map_res (build_node pr' e1') ch' = Ok co' /\ Forall2 orel co co').
    { apply map_res_ok in Q. clear N E. revert ch' H IH. induction Q as [|c c1 ch co Ec Q IHQ]; intros ch' H IH; inversion H as [|? c' ? ch2 Hc H']; subst.
      - exists []. split; [reflexivity|constructor].
      - inversion IH as [|? ? I1 I2]; subst. destruct (I1 _ _ _ _ V M B E' Hc Ec) as (c1' & Ec' & Oc). destruct (IHQ _ H' I2) as (co' & Eo & Oo).
        exists (c1' :: co'). split; [|now constructor]. apply map_res_ok. constructor; [exact Ec'|]. now apply map_res_ok. }
    destruct Z as (co' & -> & Oo). cbn [bind]. eexists. split; [reflexivity|]. now constructor.
  Qed.
  Lemma preprocess_rel pr pr' n : forall n' n1, pr_views (fun _ => True) pr pr' -> nrel n n' -> preprocess pr n = Ok n1 -> exists n1', preprocess pr' n' = Ok n1' /\ nrel n1 n1'.
  Proof.
    induction n as [name b pc meta src|name ch src IH] using node_ind2; intros n' n1 V N X.
    - inversion N as [? ? ? ? ? P|? ? ? t t' ? ? U T L|]; subst; cbn [preprocess] in *.
      + destruct pc as [t|m|v|c| |]; try (injection X as <-; eexists; split; [reflexivity|now constructor]).
        destruct (preprocess_markdown pr src m) as [m'|x|q|] eqn:E; cbn [map_err bind] in *; try discriminate. rewrite (body_view _ _ _ _ _ _ V Logic.I E). cbn [map_err bind]. injection X as <-.
        eexists. split; [reflexivity|]. now constructor.
      + injection X as <-. eexists. split; [reflexivity|]. now constructor.
    - inversion N as [| |? ? ch' ? H]; subst. cbn [preprocess] in *. destruct (map_res (preprocess pr) ch) as [co| | |] eqn:Q; cbn [bind] in X; try discriminate. injection X as <-.
      assert (Z : exists co', map_res (preprocess pr') ch' = Ok co' /\ Forall2 nrel co co').
      { apply map_res_ok in Q. clear N. revert ch' H IH. induction Q as [|c c1 ch co Ec Q IHQ]; intros ch' H IH; inversion H as [|? c' ? ch2 Hc H']; subst.
        - exists []. split; [reflexivity|constructor].
        - inversion IH as [|? ? I1 I2]; subst. destruct (I1 _ _ V Hc Ec) as (c1' & Ec' & Oc). destruct (IHQ _ H' I2) as (co' & Eo & Oo).
          exists (c1' :: co'). split; [|now constructor]. apply map_res_ok. constructor; [exact Ec'|]. now apply map_res_ok. }
      destruct Z as (co' & -> & Oo). cbn [bind]. eexists. split; [reflexivity|]. now constructor.
  Qed.
  Lemma nrel_keep n n' : nrel n n' -> keep n' = keep n.
  Proof. now intros []. Qed.
  Lemma nrel_prune n : forall n', nrel n n' -> keep n = true -> prune n' = prune n.
  Proof.
    induction n as [name b pc meta src|name ch src IH] using node_ind2; intros n' N K.
    - inversion N; subst; [reflexivity|discriminate K].
    - inversion N as [| |? ? ch' ? H]; subst. cbn [prune]. f_equal. change (prune_all ch' = prune_all ch). clear N K. revert IH. induction H as [|c c' ch ch' Hc H IHH]; intros IH; [reflexivity|].
      inversion IH as [|? ? I1 I2]; subst. unfold prune_all in *. cbn [flat_map]. rewrite (nrel_keep _ _ Hc), (IHH I2). destruct (keep c) eqn:Kc; [|reflexivity]. now rewrite (I1 _ Hc eq_refl).
  Qed.
  Lemma orel_at n ks m : at_names n ks m -> forall n', orel n n' -> exists m', at_names n' ks m' /\ orel m m'.
  Proof.
    induction 1 as [n|name ch src c ks m Ic A IH]; intros n' O; [exists n'; split; [constructor|exact O]|]. inversion O as [|? ? ch' ? H]; subst.
    destruct (Forall2_in_l _ _ _ _ H Ic) as (c' & Ic' & Oc). destruct (IH _ Oc) as (m' & A' & Om). exists m'. split; [|exact Om]. rewrite <- (orel_name _ _ Oc). now constructor.
  Qed.
  Lemma orel_pages out out' : orel out out' -> forall ks src name o, ~ is_template (last src []) -> page_from out ks src name o -> page_from out' ks src name o.
  Proof.
    intros O ks src name o T (p & meta & A). destruct (orel_at _ _ _ A _ O) as (m' & A' & Om). inversion Om as [? ? b' ? ? ? [->|[K _]]|]; subst; [now exists p, meta|contradiction].
  Qed.
End Pages.

(** ** Loading *)
Section Load.
  Variables (h : host) (ps : list plugin).
  Let F : Prop := Forall (fun p => pl_fns p = [] /\ pl_parsers p = []) ps.
  Lemma parsed_means file t toks : parse_html (h_ext h) (fns ps) file t = Ok toks -> SpecGrammar.means (h_ext h) (fns ps) t (map t_inner toks).
  Proof. intros P. apply (parse_means _ _ file). now exists toks. Qed.
  Lemma parsed_self file t toks : F -> parse_html (h_ext h) (fns ps) file t = Ok toks -> ren toks toks.
  Proof.
    intros f P. apply parsed_means in P. exists eq. split; [exact one_eq|]. apply toks_changed; [eapply means_ends; exact P|]. apply means_same in P; [|now apply no_functions].
    induction P; constructor; assumption.
  Qed.
  Lemma file_self p nm b n : create_from_file h ps true p nm b = Ok n -> nrel F n n.
  Proof.
    unfold create_from_file. match goal with |- bind ?x _ = _ -> _ => destruct x as [pc| | |] eqn:E end; cbn [bind]; try discriminate. intros X; injection X as <-. constructor. intros f.
    destruct (extension nm) as [e|]; [|injection E as <-; exact Logic.I]. destruct (text_eqb e (lit "html")).
    { destruct (from_utf8 b) as [t|]; cbn [ok_or bind] in E; [|discriminate]. destruct (parse_html _ _ _ _) as [toks| | |] eqn:P; cbn [map_err bind] in E; try discriminate. injection E as <-. cbn [plain]. eapply parsed_self; eassumption. }
    destruct (text_eqb e (lit "md")).
    { destruct (from_utf8 b) as [t|]; cbn [ok_or bind] in E; [|discriminate]. destruct (parse_markdown _ _ _ _) as [m| | |] eqn:P; cbn [map_err bind] in E; try discriminate. injection E as <-. exact Logic.I. }
    destruct (text_eqb e (lit "json")).
    { destruct (from_utf8 b) as [t|]; cbn [ok_or bind] in E; [|discriminate]. destruct (h_json h t); cbn [ok_or bind] in E; [|discriminate]. injection E as <-. exact Logic.I. }
    rewrite (no_kinds ps e f) in E. injection E as <-. exact Logic.I.
  Qed.
  Lemma create_self e : forall p nm n, create_from h ps true p nm e = Ok n -> nrel F n n.
  Proof.
    induction e as [b| |l IH] using ent_ind2; intros p nm n; cbn [create_from]; [apply file_self|discriminate|].
    destruct (map_res _ l) as [ch| | |] eqn:M; cbn [bind]; try discriminate. intros X; injection X as <-. constructor. apply map_res_ok in M. revert IH.
    induction M as [|[k e] c l ch Ec M IHM]; intros IH; [constructor|]. inversion IH as [|? ? I1 I2]; subst. constructor; [exact (I1 _ _ _ Ec)|now apply IHM].
  Qed.
  Lemma file_renamed p nm b b' n : has_ext nm (lit "html") -> (is_template nm -> F) -> renamed_text h ps b b' -> last p [] = nm -> create_from_file h ps true p nm b = Ok n ->
    exists n', create_from_file h ps true p nm b' = Ok n' /\ nrel F n n'.
  Proof.
    intros X T (R & t & t' & ks & ks' & O & U & U' & Mn & Mn' & C) L. apply ext_of in X. unfold create_from_file. rewrite X. apply Utf8Facts.decoding in U, U'. rewrite U, U'. cbn [ok_or bind].
    change (text_eqb (lit "html") (lit "html")) with true. cbv iota. destruct (parse_html (h_ext h) (fns ps) p t) as [toks| | |] eqn:P; cbn [map_err bind]; try discriminate. intros E; injection E as <-.
    pose proof (one_meaning _ _ _ _ _ Mn (parsed_means _ _ _ P)) as ->. apply (parse_means _ _ p) in Mn'. destruct Mn' as (toks' & P' & <-). change (parse_html (h_ext h) (fns ps) p t' = Ok toks') in P'. rewrite P'. cbn [map_err bind].
    eexists. split; [reflexivity|]. constructor; [|exact T|exact L]. exists R. split; [exact O|]. apply toks_changed; [eapply means_ends; eapply parsed_means; exact P|exact C].
  Qed.
  Lemma create_renamed e : forall e' (p : path) nm n, renamed h ps nm e e' -> (forall b, e = EFile b -> last p [] = nm) -> create_from h ps true p nm e = Ok n ->
    exists n', create_from h ps true p nm e' = Ok n' /\ nrel F n n'.
  Proof.
    induction e as [b| |l IH] using ent_ind2; intros e' p nm n Rn L C; inversion Rn as [|? ? b' X T U|? ? l' A]; subst; try (exists n; split; [exact C|eapply create_self; exact C]).
    - cbn [create_from] in *. eapply file_renamed; eauto.
    - cbn [create_from] in *. destruct (map_res _ l) as [ch| | |] eqn:M; cbn [bind] in C; try discriminate. injection C as <-.
      assert (Z : exists ch', map_res (fun ne : text * ent => create_from h ps true (p ++ [fst ne]) (fst ne) (snd ne)) l' = Ok ch' /\ Forall2 (nrel F) ch ch').
      { apply map_res_ok in M. clear Rn L. revert l' A IH. induction M as [|[k e] c l ch Ec M IHM]; intros l' A IH; inversion A as [|? ? e' ? l2 Re A']; subst.
        - exists []. split; [reflexivity|constructor].
        - inversion IH as [|? ? I1 I2]; subst. cbn [fst snd] in *. destruct (I1 e' (p ++ [k]) k c Re) as (c' & Ec' & Nc); [intros; apply last_last|exact Ec|]. destruct (IHM _ A' I2) as (ch' & E' & N').
          exists (c' :: ch'). split; [|now constructor]. apply map_res_ok. constructor; [exact Ec'|]. now apply map_res_ok. }
      destruct Z as (ch' & -> & N'). cbn [bind]. eexists. split; [reflexivity|]. now constructor.
  Qed.
  Lemma text_back b b' : renamed_text h ps b b' -> renamed_text h ps b' b.
  Proof.
    intros (R & t & t' & ks & ks' & (O1 & O2 & O3) & U & U' & M & M' & C). exists (fun a a' => R a' a), t', t, ks', ks.
    split; [split; [intros a a' c c' A B; symmetry; now apply O1|split; intros a a' A; symmetry; [now apply O2|now apply O3]]|]. repeat (split; [assumption|]).
    assert (Nm : forall v v', name_change R v v' -> name_change (fun a a' => R a' a) v' v).
    { intros v v' (a & a' & js & -> & -> & G & Ra). exists a', a, js. inversion G as [|? ? G1 G']; subst. inversion G' as [|? ? G2 G3]; subst. split; [reflexivity|]. split; [reflexivity|]. split; [now repeat constructor|exact Ra]. }
    assert (In' : forall v v', input_change R v v' -> input_change (fun a a' => R a' a) v' v) by (intros v v' []; constructor; auto).
    assert (So : forall v v', sort_change R v v' -> sort_change (fun a a' => R a' a) v' v) by (intros [v|] [v'|]; cbn; auto).
    clear - C Nm In' So. induction C as [|k k' ks ks' K C IH]; constructor; [|exact IH]. destruct K; try solve [constructor; auto]; solve [apply tc_for_file; auto|apply tc_for_var; auto].
  Qed.
  Lemma renamed_back e : forall nm e', renamed h ps nm e e' -> renamed h ps nm e' e.
  Proof.
    induction e as [b| |l IH] using ent_ind2; intros nm e' Rn; inversion Rn as [|? ? b' X T U|? ? l' A]; subst; try apply rn_same.
    - apply rn_file; [exact X|exact T|now apply text_back].
    - apply rn_dir. clear Rn. revert l' A. induction IH as [|[k e] l I1 IH IHl]; intros l' A; inversion A as [|? ? e' ? l2 Re A']; subst; constructor; [now apply I1|now apply IHl].
  Qed.
  Lemma renamed_distinct e : forall nm e', renamed h ps nm e e' -> ent_distinct e -> ent_distinct e'.
  Proof.
    induction e as [b| |l IH] using ent_ind2; intros nm e' Rn D; inversion Rn as [|? ? b' X T U|? ? l' A]; subst; try assumption; [constructor|].
    inversion D as [| |? N Dl]; subst. assert (Z : map fst l' = map fst l /\ Forall (fun e => ent_distinct (snd e)) l').
    { clear Rn D N. revert l' A Dl. induction IH as [|[k e] l I1 IH IHl]; intros l' A Dl; inversion A as [|? ? e' ? l2 Re A']; subst; [now split|]. inversion Dl as [|? ? D1 D2]; subst.
      destruct (IHl _ A' D2) as [Z1 Z2]. split; [cbn [map fst]; now rewrite Z1|]. constructor; [eapply I1; eassumption|exact Z2]. }
    destruct Z as [Z1 Z2]. constructor; [now rewrite Z1|exact Z2].
  Qed.
End Load.

(** ** Sites *)
Definition ent_dir (o : option ent) : Prop := exists l, o = Some (EDir l).
Lemma build_made h osenv mode p nm l st input input' ch nm' src out : create_from h (st_plugins st) true p nm (EDir l) = Ok input ->
  preprocess (build_pr h (cf_meta (st_config st)) (build_vars osenv mode) input) input = Ok input' -> input' = NDir nm' ch src ->
  build_node (build_pr h (cf_meta (st_config st)) (build_vars osenv mode) input') (env_update (Env (build_vars osenv mode) None None) ch) input' = Ok out ->
  snd (build h osenv mode (SourceDir p nm (Some (EDir l))) st) = Ok tt /\ st_output (fst (build h osenv mode (SourceDir p nm (Some (EDir l))) st)) = Some out.
Proof.
  intros C P -> B. unfold build, node_new, build_tree. cbn [sd_ent sd_path sd_name]. rewrite C.
  fold (build_pr h (cf_meta (st_config st)) (build_vars osenv mode) input). rewrite P. cbn [bind n_children].
  fold (build_pr h (cf_meta (st_config st)) (build_vars osenv mode) (NDir nm' ch src)). rewrite B. cbn [bind fst snd st_output]. now split.
Qed.
Lemma rename_site h osenv mode p nm e e' st out : ent_distinct e -> renamed h (st_plugins st) nm e e' ->
  snd (build h osenv mode (SourceDir p nm (Some e)) st) = Ok tt -> st_output (fst (build h osenv mode (SourceDir p nm (Some e)) st)) = Some out ->
  snd (build h osenv mode (SourceDir p nm (Some e')) st) = Ok tt /\
  exists out', st_output (fst (build h osenv mode (SourceDir p nm (Some e')) st)) = Some out' /\ orel out out'.
Proof.
  intros D Rn B O. destruct (build_run _ _ _ _ _ e _ B O eq_refl) as (l & input & nm1 & ch & src & ch' & -> & C & P & M & ->). cbn [sd_path sd_name] in C.
  assert (D' : ent_distinct e') by (eapply renamed_distinct; eassumption).
  destruct (create_renamed h (st_plugins st) _ _ _ _ _ Rn ltac:(discriminate) C) as (input' & C' & N).
  assert (L' : exists l', e' = EDir l') by (inversion Rn; subst; now eexists). destruct L' as (l' & ->).
  set (pr := build_pr h (cf_meta (st_config st)) (build_vars osenv mode)) in *.
  assert (S := create_stands _ _ _ _ _ _ C). assert (S' := create_stands _ _ _ _ _ _ C').
  assert (K : is_dir input = true /\ is_dir input' = true) by (split; [inversion S; subst; reflexivity|inversion S'; subst; reflexivity]). destruct K as [K K'].
  assert (Kp : keep input = true) by (destruct input; [discriminate K|reflexivity]).
  assert (V : pr_views (fun _ => True) (pr input) (pr input')).
  { apply pr_prune; auto; [eapply stands_distinct; eassumption|eapply stands_distinct; eassumption|]. symmetry. eapply nrel_prune; eassumption. }
  destruct (preprocess_rel _ _ _ _ _ _ V N P) as (input1' & P' & N1). assert (Z : exists ch1, input1' = NDir nm1 ch1 src) by (inversion N1; subst; now eexists). destruct Z as (ch1 & ->).
  assert (S1 := preprocess_stands _ _ _ _ _ _ _ S P). assert (S1' := preprocess_stands _ _ _ _ _ _ _ S' P').
  assert (V1 : pr_views (fun _ => True) (pr (NDir nm1 ch src)) (pr (NDir nm1 ch1 src))).
  { apply pr_prune; auto; [eapply stands_distinct; eassumption|eapply stands_distinct; eassumption|]. symmetry. eapply nrel_prune; [exact N1|reflexivity]. }
  assert (Ee : env_rel (Forall (fun p => pl_fns p = [] /\ pl_parsers p = []) (st_plugins st)) (env_update (Env (build_vars osenv mode) None None) ch) (env_update (Env (build_vars osenv mode) None None) ch1)).
  { apply update_rel; [|now inversion N1]. split; [reflexivity|]. split; [left; split; [reflexivity|discriminate]|]. split; [left; split; [reflexivity|discriminate]|now left]. }
  assert (Bn : build_node (pr (NDir nm1 ch src)) (env_update (Env (build_vars osenv mode) None None) ch) (NDir nm1 ch src) = Ok (NDir nm1 ch' src)) by (cbn [build_node]; rewrite M; reflexivity).
  assert (Bo : base_ok (pr (NDir nm1 ch src))).
  { intros b X. injection X as <-. split; [reflexivity|]. constructor; [reflexivity|constructor]. }
  destruct (node_rel _ _ _ _ _ _ _ _ V1 eq_refl Bo Ee N1 Bn) as (out' & Bn' & Oo).
  destruct (build_made h osenv mode p nm l' st input' _ ch1 nm1 src out' C' P' eq_refl Bn') as [X Y]. split; [exact X|]. exists out'. now split.
Qed.
Lemma renaming h osenv mode d d' st e e' : sd_path d' = sd_path d -> sd_name d' = sd_name d -> sd_ent d = Some e -> sd_ent d' = Some e' -> ent_distinct e ->
  renamed h (st_plugins st) (sd_name d) e e' ->
  (snd (build h osenv mode d st) = Ok tt <-> snd (build h osenv mode d' st) = Ok tt) /\
  (snd (build h osenv mode d st) = Ok tt -> exists out out', st_output (fst (build h osenv mode d st)) = Some out /\ st_output (fst (build h osenv mode d' st)) = Some out' /\ same_pages out out').
Proof.
  destruct d as [p nm o], d' as [p' nm' o']. cbn [sd_path sd_name sd_ent]. intros -> -> -> -> D Rn.
  assert (Out : forall x, snd (build h osenv mode (SourceDir p nm (Some x)) st) = Ok tt -> exists out, st_output (fst (build h osenv mode (SourceDir p nm (Some x)) st)) = Some out).
  { intros x. unfold build. destruct (node_new _ _ _ _ _ _); try discriminate. destruct (preprocess _ _); try discriminate. destruct (build_tree _ _ _ _) as [[? out]| | |]; try discriminate. intros _. now exists out. }
  assert (D' := renamed_distinct _ _ _ _ _ Rn D). assert (Rn' := renamed_back _ _ _ _ _ Rn).
  split; [split; intros B|intros B]; destruct (Out _ B) as (out & O).
  - exact (proj1 (rename_site _ _ _ _ _ _ _ _ _ D Rn B O)).
  - exact (proj1 (rename_site _ _ _ _ _ _ _ _ _ D' Rn' B O)).
  - destruct (rename_site _ _ _ _ _ _ _ _ _ D Rn B O) as (B' & out' & O' & Oo). destruct (rename_site _ _ _ _ _ _ _ _ _ D' Rn' B' O') as (_ & out2 & O2 & Oo'). rewrite O in O2. injection O2 as <-.
    exists out, out'. split; [exact O|]. split; [exact O'|]. intros ks src name o T. split; [now apply (orel_pages out out')|now apply (orel_pages out' out)].
Qed.
