(** EscapeFacts.v -- escaping and raw text (parse/parser.rs: extract_until, extract_remaining). *)

From Coq Require Import List NArith Bool Lia Arith.
From Coq Require Import ZifyBool ZifyNat ZifyN.
From Verif Require Import Text TextFacts Base Lexer LexerFacts SpecTemplate.
Import ListNotations.
Local Open Scope N_scope.

(** The top of a reversed text is not the character. *)
Definition top_not (c : char) (racc : text) : Prop :=
  match racc with [] => True | d :: _ => d <> c end.

Lemma rev_open : rev open_tag = open_tag.
Proof. reflexivity. Qed.

Lemma strip_open_no c racc : c <> c_lbrace -> strip_prefix (rev open_tag) (c :: racc) = None.
Proof.
  intros H. cbn [rev app open_tag strip_prefix].
  destruct (N.eqb_spec c_lbrace c); congruence.
Qed.
Lemma strip_open_no2 racc : top_not c_lbrace racc -> strip_prefix (rev open_tag) (c_lbrace :: racc) = None.
Proof.
  intros H. cbn [rev app open_tag strip_prefix]. rewrite N.eqb_refl.
  destruct racc as [|d r]; auto. cbn [strip_prefix]. simpl in H.
  destruct (N.eqb_spec c_lbrace d); congruence.
Qed.

(** One step on a character that completes no opening pair. *)
Lemma until_step_other c cs racc pre : c <> c_lbrace ->
  until_loop open_tag true (c :: cs) racc (state_at pre (c :: cs)) =
  until_loop open_tag true cs (c :: racc) (state_at (pre ++ [c]) cs).
Proof.
  intros H. cbn [until_loop]. rewrite state_at_advance, strip_open_no; auto.
Qed.
Lemma until_step_brace cs racc pre : top_not c_lbrace racc ->
  until_loop open_tag true (c_lbrace :: cs) racc (state_at pre (c_lbrace :: cs)) =
  until_loop open_tag true cs (c_lbrace :: racc) (state_at (pre ++ [c_lbrace]) cs).
Proof.
  intros H. cbn [until_loop]. rewrite state_at_advance, strip_open_no2; auto.
Qed.
(** An escaped pair. *)
Lemma until_step_escaped cs racc pre :
  until_loop open_tag true (c_bslash :: c_lbrace :: c_lbrace :: cs) racc
    (state_at pre (c_bslash :: c_lbrace :: c_lbrace :: cs)) =
  until_loop open_tag true cs (c_lbrace :: c_lbrace :: racc)
    (state_at (pre ++ [c_bslash; c_lbrace; c_lbrace]) cs).
Proof.
  rewrite until_step_other by discriminate. rewrite until_step_brace by (simpl; discriminate).
  cbn [until_loop]. rewrite state_at_advance.
  cbn [rev app open_tag strip_prefix]. rewrite !N.eqb_refl. cbn [andb].
  now rewrite <- !app_assoc.
Qed.
(** An opening tag. *)
Lemma until_step_open cs racc pre :
  top_not c_lbrace racc -> top_not c_bslash racc ->
  until_loop open_tag true (open_tag ++ cs) racc (state_at pre (open_tag ++ cs)) =
  (Some (rev racc), state_at (pre ++ open_tag) cs).
Proof.
  intros H1 H2. cbn [open_tag app]. rewrite until_step_brace by auto.
  cbn [until_loop]. rewrite state_at_advance. rewrite <- app_assoc. cbn [app].
  cbn [rev app open_tag strip_prefix]. rewrite !N.eqb_refl. cbn [andb].
  destruct racc as [|b r]; [reflexivity|]. simpl in H2.
  destruct (N.eqb_spec b c_bslash); [congruence|reflexivity].
Qed.

Lemma run_S t : run (c_lbrace :: t) = S (run t).
Proof. simpl. reflexivity. Qed.
Lemma run_other c t : c <> c_lbrace -> run (c :: t) = O.
Proof. intros H. simpl. destruct (N.eqb_spec c c_lbrace); congruence. Qed.
Lemma run_pos t n : run t = S n -> exists t', t = c_lbrace :: t' /\ run t' = n.
Proof.
  destruct t as [|c t']; simpl; [discriminate|].
  destruct (N.eqb_spec c c_lbrace) as [->|]; [|discriminate].
  intros H. injection H as H. eauto.
Qed.
Lemma escape_even t : Nat.even (run (c_lbrace :: t)) = true ->
  exists t', t = c_lbrace :: t' /\ Nat.even (run t') = true /\
    escape (c_lbrace :: t) = c_bslash :: c_lbrace :: c_lbrace :: escape t'.
Proof.
  intros H. pose proof H as H0. rewrite run_S in H. destruct (run t) as [|n] eqn:E; [discriminate|].
  simpl in H. destruct (run_pos _ _ E) as (t' & -> & Hr). exists t'. rewrite Hr. split; auto. split; auto.
  cbn [escape]. rewrite N.eqb_refl, H0. cbn [andb].
  rewrite run_S, Hr.
  replace (Nat.even (S n)) with false; auto.
  rewrite Nat.even_succ, <- Nat.negb_even, H. reflexivity.
Qed.
Lemma escape_odd t : Nat.even (run (c_lbrace :: t)) = false ->
  escape (c_lbrace :: t) = c_lbrace :: escape t /\ Nat.even (run t) = true.
Proof.
  intros H. split.
  - cbn [escape]. rewrite H, andb_false_r. reflexivity.
  - rewrite run_S, Nat.even_succ, <- Nat.negb_even in H. now apply negb_false_iff in H.
Qed.
Lemma escape_other c t : c <> c_lbrace -> escape (c :: t) = c :: escape t.
Proof. intros H. cbn [escape]. destruct (N.eqb_spec c c_lbrace); [congruence|reflexivity]. Qed.

(** Reading an escaped text: it is accumulated as it is. *)
Lemma until_escape n : forall t racc pre cs, (length t <= n)%nat ->
  (Nat.even (run t) = true \/ top_not c_lbrace racc) ->
  until_loop open_tag true (escape t ++ cs) racc (state_at pre (escape t ++ cs)) =
  until_loop open_tag true cs (rev t ++ racc) (state_at (pre ++ escape t) cs).
Proof.
  induction n as [|n IH]; intros t racc pre cs Hn Hr.
  - destruct t; [|simpl in Hn; lia]. cbn [escape app rev]. now rewrite app_nil_r.
  - destruct t as [|c t]; [cbn [escape app rev]; now rewrite app_nil_r|].
    cbn [length] in Hn.
    destruct (N.eq_dec c c_lbrace) as [->|Hc].
    + destruct (Nat.even (run (c_lbrace :: t))) eqn:He.
      * destruct (escape_even _ He) as (t' & -> & He' & ->). cbn [app].
        rewrite until_step_escaped. rewrite IH by (cbn [length] in Hn; auto; lia).
        cbn [rev]. rewrite <- !app_assoc. reflexivity.
      * destruct (escape_odd _ He) as [-> He']. cbn [app].
        rewrite until_step_brace by (destruct Hr; auto; congruence).
        rewrite IH by (auto; lia). cbn [rev]. rewrite <- !app_assoc. reflexivity.
    + rewrite escape_other by auto. cbn [app]. rewrite until_step_other by auto.
      rewrite IH by (try lia; right; exact Hc). cbn [rev]. rewrite <- !app_assoc. reflexivity.
Qed.

Lemma extract_until_escape_end pre t :
  fst (extract_until open_tag true (state_at pre (escape t))) = None /\
  p_chars (snd (extract_until open_tag true (state_at pre (escape t)))) = escape t.
Proof.
  unfold extract_until. rewrite state_at_chars.
  pose proof (until_escape (length t) t [] pre [] (le_n _) (or_intror I)) as H.
  rewrite app_nil_r in H. rewrite H. cbn [until_loop]. auto.
Qed.
Lemma extract_until_escape_tag pre t cs : can_precede_tag t ->
  extract_until open_tag true (state_at pre (escape t ++ open_tag ++ cs)) =
  (Some t, state_at (pre ++ escape t ++ open_tag) cs).
Proof.
  intros Ht. unfold extract_until. rewrite state_at_chars.
  rewrite (until_escape (length t)) by (auto; right; exact I). rewrite app_nil_r.
  assert (Htop : top_not c_lbrace (rev t) /\ top_not c_bslash (rev t)).
  { destruct (rev t) as [|c r] eqn:E; simpl; auto.
    apply (Ht (rev r) c). rewrite <- (rev_involutive t), E. reflexivity. }
  rewrite until_step_open by tauto. now rewrite rev_involutive, app_assoc.
Qed.

(** [extract_remaining] *)
Lemma escape_head t r : escape t = c_lbrace :: r -> forall r', r <> c_lbrace :: r'.
Proof.
  destruct t as [|c t]; [discriminate|]. intros H r' ->.
  destruct (N.eq_dec c c_lbrace) as [->|Hc].
  - destruct (Nat.even (run (c_lbrace :: t))) eqn:He.
    + destruct (escape_even _ He) as (t' & -> & He' & E). rewrite E in H. discriminate.
    + destruct (escape_odd _ He) as [E He']. rewrite E in H. injection H as H.
      destruct t as [|c t]; [discriminate|].
      destruct (N.eq_dec c c_lbrace) as [->|Hc].
      * destruct (escape_even _ He') as (t' & _ & _ & E'). rewrite E' in H. discriminate.
      * rewrite escape_other in H by auto. congruence.
  - rewrite escape_other in H by auto. congruence.
Qed.
Lemma replace_step_escaped cs :
  replace_aux (c_bslash :: open_tag) open_tag O (c_bslash :: c_lbrace :: c_lbrace :: cs) =
  c_lbrace :: c_lbrace :: replace_aux (c_bslash :: open_tag) open_tag O cs.
Proof. reflexivity. Qed.
Lemma replace_escape n : forall t, (length t <= n)%nat ->
  replace_aux (c_bslash :: open_tag) open_tag O (escape t) = t.
Proof.
  induction n as [|n IH]; intros t Hn.
  - destruct t; [reflexivity|simpl in Hn; lia].
  - destruct t as [|c t]; [reflexivity|]. cbn [length] in Hn.
    destruct (N.eq_dec c c_lbrace) as [->|Hc].
    + destruct (Nat.even (run (c_lbrace :: t))) eqn:He.
      * destruct (escape_even _ He) as (t' & -> & He' & ->). cbn [length] in Hn.
        rewrite replace_step_escaped. rewrite IH by lia. reflexivity.
      * destruct (escape_odd _ He) as [-> He']. cbn [replace_aux strip_prefix].
        change (c_bslash =? c_lbrace) with false. cbn iota. rewrite IH by lia. reflexivity.
    + rewrite escape_other by auto. cbn [replace_aux].
      destruct (strip_prefix (c_bslash :: open_tag) (c :: escape t)) as [r|] eqn:E.
      * apply strip_prefix_spec in E. cbn [open_tag app] in E. injection E as -> E.
        exfalso. eapply escape_head; eauto.
      * rewrite IH by lia. reflexivity.
Qed.
Lemma extract_remaining_escape p t : p_chars p = escape t -> extract_remaining p = t.
Proof.
  intros H. unfold extract_remaining. rewrite H. unfold str_replace.
  apply (replace_escape (length t)). lia.
Qed.

(** A text without opening pairs is written as it is. *)
Lemma escape_plain t : (forall a b, t <> a ++ open_tag ++ b) -> escape t = t.
Proof.
  induction t as [|c t IH]; intros H; auto.
  assert (Ht : escape t = t).
  { apply IH. intros a b E. apply (H (c :: a) b). now rewrite E. }
  cbn [escape]. rewrite Ht.
  destruct (N.eqb_spec c c_lbrace) as [->|]; cbn [andb]; auto.
  destruct (Nat.even (run (c_lbrace :: t))) eqn:He; auto.
  destruct (escape_even _ He) as (t' & -> & _). exfalso. now apply (H [] t').
Qed.
