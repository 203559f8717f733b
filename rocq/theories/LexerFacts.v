(** LexerFacts.v -- lemmas about Lexer.v: the parser state as a function of the text consumed. *)

From Coq Require Import List NArith Bool Lia Arith.
From Coq Require Import ZifyBool ZifyNat ZifyN.
From Verif Require Import Text TextFacts Base Lexer.
Import ListNotations.
Local Open Scope N_scope.

(** The state reached from the beginning of a text after consuming [pre], [rest] remaining. *)
Definition bump (p : parser) (c : char) : parser := advance c [] p.
Definition counters (pre : text) : parser := fold_left bump pre (parser_new []).
Definition state_at (pre rest : text) : parser :=
  let p := counters pre in Parser rest (p_line p) (p_col p) (p_nline p) (p_ncol p).

Lemma counters_snoc pre c : counters (pre ++ [c]) = bump (counters pre) c.
Proof. unfold counters. now rewrite fold_left_app. Qed.

Lemma state_at_new t : parser_new t = state_at [] t.
Proof. reflexivity. Qed.
Lemma state_at_advance pre c rest :
  advance c rest (state_at pre (c :: rest)) = state_at (pre ++ [c]) rest.
Proof.
  unfold state_at. rewrite counters_snoc. unfold bump, advance.
  destruct (c =? c_lf); [reflexivity|]. destruct (c =? c_cr); reflexivity.
Qed.
Lemma state_at_chars pre rest : p_chars (state_at pre rest) = rest.
Proof. reflexivity. Qed.

Lemma counters_nline pre : p_nline (counters pre) = 1 + count_lf pre.
Proof.
  induction pre as [|c pre IH] using rev_ind; [reflexivity|].
  rewrite counters_snoc, count_lf_app, count_lf_cons. unfold bump, advance.
  destruct (c =? c_lf); [|destruct (c =? c_cr)]; cbn [p_nline]; rewrite IH;
    change (count_lf []) with 0; lia.
Qed.
Lemma counters_line pre c : p_line (counters (pre ++ [c])) = 1 + count_lf pre.
Proof.
  rewrite counters_snoc. unfold bump, advance.
  destruct (c =? c_lf); [|destruct (c =? c_cr)]; cbn [p_line]; apply counters_nline.
Qed.

(** The number of characters other than CR after the last LF, plus the base of the line: 1 on
    the first line, 0 on the others. *)
Definition is_cr_free (t : text) : N := N.of_nat (length (filter (fun c => negb (c =? c_cr)) t)).
Fixpoint last_line (t : text) : text :=
  match t with
  | [] => []
  | c :: t' => if (c =? c_lf) then last_line t'
               else if contains_char c_lf t' then last_line t' else c :: t'
  end.
Lemma last_line_snoc t c :
  last_line (t ++ [c]) = if c =? c_lf then [] else last_line t ++ [c].
Proof.
  induction t as [|x t IH]; cbn [app last_line].
  - destruct (c =? c_lf) eqn:E; auto.
  - assert (Hc : contains_char c_lf (t ++ [c]) = contains_char c_lf t || (c =? c_lf)).
    { unfold contains_char. rewrite existsb_app. cbn [existsb]. now rewrite orb_false_r, N.eqb_sym. }
    rewrite Hc, IH. destruct (c =? c_lf) eqn:E, (x =? c_lf) eqn:Ex; auto;
      destruct (contains_char c_lf t) eqn:Et; cbn [orb]; auto.
Qed.
Lemma counters_ncol pre :
  p_ncol (counters pre) = (if count_lf pre =? 0 then 1 else 0) + is_cr_free (last_line pre).
Proof.
  induction pre as [|c pre IH] using rev_ind; [reflexivity|].
  rewrite counters_snoc, last_line_snoc, count_lf_app, count_lf_cons.
  change (count_lf []) with 0. unfold bump, advance.
  destruct (c =? c_lf) eqn:E; [|destruct (c =? c_cr) eqn:E2]; cbn [p_ncol].
  - change (is_cr_free []) with 0. destruct (count_lf pre + (1 + 0) =? 0) eqn:Ez; lia.
  - rewrite IH. replace (count_lf pre + (0 + 0)) with (count_lf pre) by lia.
    unfold is_cr_free. rewrite filter_app. cbn [filter]. rewrite E2. cbn [negb].
    now rewrite app_nil_r.
  - rewrite IH. replace (count_lf pre + (0 + 0)) with (count_lf pre) by lia.
    unfold is_cr_free. rewrite filter_app. cbn [filter]. rewrite E2. cbn [negb].
    rewrite app_length. cbn [length]. tlia.
Qed.
Lemma counters_col pre c : p_col (counters (pre ++ [c])) = p_ncol (counters pre).
Proof.
  rewrite counters_snoc. unfold bump, advance.
  destruct (c =? c_lf); [|destruct (c =? c_cr)]; reflexivity.
Qed.

(** [extract_while] *)
Fixpoint span {S} (f : S -> char -> bool * S) (st : S) (cs : text) : text * text :=
  match cs with
  | [] => ([], [])
  | c :: cs' => let (b, st') := f st c in
                if b then let (x, y) := span f st' cs' in (c :: x, y) else ([], cs)
  end.
Lemma while_loop_span {S} (f : S -> char -> bool * S) cs : forall st pre,
  while_loop f st cs (state_at pre cs) =
  (fst (span f st cs), state_at (pre ++ fst (span f st cs)) (snd (span f st cs))).
Proof.
  induction cs as [|c cs IH]; intros st pre; cbn [while_loop span].
  - cbn [fst snd]. now rewrite app_nil_r.
  - destruct (f st c) as [b st']. destruct b.
    + rewrite state_at_advance, IH. destruct (span f st' cs) as [x y]. cbn [fst snd].
      now rewrite <- app_assoc.
    + cbn [fst snd]. now rewrite app_nil_r.
Qed.
Lemma extract_while_st_span {S} (f : S -> char -> bool * S) st pre cs :
  extract_while_st f st (state_at pre cs) =
  (fst (span f st cs), state_at (pre ++ fst (span f st cs)) (snd (span f st cs))).
Proof. apply while_loop_span. Qed.
Lemma span_app {S} (f : S -> char -> bool * S) st cs : cs = fst (span f st cs) ++ snd (span f st cs).
Proof.
  revert st; induction cs as [|c cs IH]; intros st; cbn [span]; auto.
  destruct (f st c) as [[] st']; auto.
  specialize (IH st'). destruct (span f st' cs). cbn [fst snd app] in *. now rewrite <- IH.
Qed.

(** The stateless case. *)
Definition span1 (f : char -> bool) (cs : text) : text * text :=
  span (fun (_ : unit) c => (f c, tt)) tt cs.
Lemma extract_while_span f pre cs :
  extract_while f (state_at pre cs) =
  (fst (span1 f cs), state_at (pre ++ fst (span1 f cs)) (snd (span1 f cs))).
Proof. apply while_loop_span. Qed.
Lemma span1_spec f cs : cs = fst (span1 f cs) ++ snd (span1 f cs) /\
  forallb f (fst (span1 f cs)) = true /\
  match snd (span1 f cs) with [] => True | c :: _ => f c = false end.
Proof.
  split; [apply span_app|]. unfold span1.
  induction cs as [|c cs IH]; cbn [span]; [cbn; auto|].
  destruct (f c) eqn:E; cbn [fst snd].
  - destruct (span _ tt cs) as [x y]. cbn [fst snd] in *. cbn [forallb]. rewrite E. apply IH.
  - cbn [forallb]. auto.
Qed.
Definition stops (f : char -> bool) (t : text) : Prop :=
  match t with [] => True | c :: _ => f c = false end.
Lemma span1_app f a b : forallb f a = true -> stops f b -> span1 f (a ++ b) = (a, b).
Proof.
  intros Ha Hb. unfold span1. induction a as [|c a IH]; cbn [app span].
  - destruct b as [|c b]; auto. cbn [span]. simpl in Hb. now rewrite Hb.
  - cbn [forallb] in Ha. apply andb_true_iff in Ha as [Hc Ha]. rewrite Hc.
    now rewrite IH.
Qed.
Lemma extract_while_app f pre a b : forallb f a = true -> stops f b ->
  extract_while f (state_at pre (a ++ b)) = (a, state_at (pre ++ a) b).
Proof. intros. rewrite extract_while_span, span1_app; auto. Qed.
Lemma ignore_while_app f pre a b : forallb f a = true -> stops f b ->
  ignore_while f (state_at pre (a ++ b)) = state_at (pre ++ a) b.
Proof. intros. unfold ignore_while. rewrite extract_while_app; auto. Qed.
Lemma ignore_while_span f pre cs :
  ignore_while f (state_at pre cs) = state_at (pre ++ fst (span1 f cs)) (snd (span1 f cs)).
Proof. unfold ignore_while. now rewrite extract_while_span. Qed.

(** [next], [expect] *)
Lemma p_next_state pre c cs : p_next (state_at pre (c :: cs)) = Some (c, state_at (pre ++ [c]) cs).
Proof. unfold p_next. rewrite state_at_chars. now rewrite state_at_advance. Qed.
Lemma p_expect_state file s pre cs :
  p_expect file s (state_at pre (s ++ cs)) = Ok (state_at (pre ++ s) cs).
Proof.
  unfold p_expect. generalize s at 1 as s0.
  revert pre. induction s as [|c s IH]; intros pre s0; cbn [p_expect_aux app].
  - now rewrite app_nil_r.
  - rewrite p_next_state, N.eqb_refl, IH. now rewrite <- app_assoc.
Qed.
Lemma p_expect_inv file s pre cs p' :
  p_expect file s (state_at pre cs) = Ok p' ->
  exists cs', cs = s ++ cs' /\ p' = state_at (pre ++ s) cs'.
Proof.
  unfold p_expect. generalize s at 1 as s0.
  revert pre cs. induction s as [|c s IH]; intros pre cs s0; cbn [p_expect_aux app].
  - intros H. injection H as <-. exists cs. now rewrite app_nil_r.
  - destruct cs as [|d cs]; [discriminate|]. rewrite p_next_state.
    destruct (N.eqb_spec c d) as [->|]; [|discriminate]. intros H.
    destruct (IH _ _ _ H) as (cs' & -> & ->). exists cs'. now rewrite <- app_assoc.
Qed.
Lemma p_expect_total file s p : (exists p', p_expect file s p = Ok p') \/ exists e, p_expect file s p = Err e.
Proof.
  unfold p_expect. generalize s at 1 3 as s0. revert p.
  induction s as [|c s IH]; intros p s0; cbn [p_expect_aux]; eauto.
  destruct (p_next p) as [[d p']|]; eauto. destruct (c =? d); eauto.
Qed.

(** [extract_until] *)
Lemma until_loop_pos s esc cs : s <> [] -> forall racc pre raw p',
  until_loop s esc cs racc (state_at pre cs) = (Some raw, p') ->
  exists a b, cs = a ++ b /\ p' = state_at (pre ++ a) b /\ a <> [].
Proof.
  intros Hs. induction cs as [|c cs IH]; intros racc pre raw p'; cbn [until_loop]; [discriminate|].
  rewrite state_at_advance.
  assert (Hrec : forall racc, until_loop s esc cs racc (state_at (pre ++ [c]) cs) = (Some raw, p') ->
    exists a b, c :: cs = a ++ b /\ p' = state_at (pre ++ a) b /\ a <> []).
  { intros racc0 H. destruct (IH _ _ _ _ H) as (a & b & -> & -> & Ha).
    exists (c :: a), b. rewrite <- app_assoc. repeat split. discriminate. }
  assert (Hstop : forall x, (Some x, state_at (pre ++ [c]) cs) = (Some raw, p') ->
    exists a b, c :: cs = a ++ b /\ p' = state_at (pre ++ a) b /\ a <> []).
  { intros x H. injection H as _ <-. exists [c], cs. repeat split. discriminate. }
  destruct (strip_prefix (rev s) (c :: racc)) as [[|b r]|]; eauto.
  destruct (esc && (b =? c_bslash)); eauto.
Qed.
Lemma extract_until_pos s esc pre cs raw p' : s <> [] ->
  extract_until s esc (state_at pre cs) = (Some raw, p') ->
  exists a b, cs = a ++ b /\ p' = state_at (pre ++ a) b /\ a <> [].
Proof.
  intros Hs. unfold extract_until. rewrite state_at_chars.
  destruct (until_loop s esc cs [] (state_at pre cs)) as [[r|] q] eqn:E; [|discriminate].
  intros H. injection H as -> ->. eapply until_loop_pos; eauto.
Qed.
