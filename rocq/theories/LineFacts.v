(** LineFacts.v -- line ends of sources and of what is made of them (C100). *)

From Coq Require Import String List NArith ZArith Bool Lia.
From Verif Require Import Text TextFacts Utf8 Json Base Lexer Syntax Parse Tree Interp Build SpecTemplate SpecGrammar SpecUtf8 SpecTree SpecReads SpecLines.
From Verif Require Import GrammarFacts.
Import ListNotations.
Local Open Scope N_scope.

(** ** Texts *)
Notation nb := (fun c : N => c <> c_cr /\ c <> c_lf).
Definition plain (p : text) : Prop := Forall nb p.
Lemma sb_refl t : same_but_breaks t t.
Proof. induction t; constructor; auto. Qed.
Lemma sb_sym P t t' : same_but P t t' -> same_but P t' t.
Proof. induction 1; constructor; auto. Qed.
Lemma sb_weak (P Q : N -> Prop) t t' : (forall c, P c -> Q c) -> same_but P t t' -> same_but Q t t'.
Proof. intros H. induction 1; constructor; auto. Qed.
Lemma sb_app P a a' b b' : same_but P a a' -> same_but P b b' -> same_but P (a ++ b) (a' ++ b').
Proof. intros H K. induction H; cbn [app]; [auto|constructor; auto|]. rewrite <- !app_assoc. constructor; auto. Qed.
Lemma sb_split P w x : same_but P w x -> forall a b, w = a ++ b -> (exists a' b', x = a' ++ b' /\ same_but P a a' /\ same_but P b b') \/ (exists a0 b0, a = a0 ++ [c_cr] /\ b = c_lf :: b0).
Proof.
  induction 1 as [|c t t' C H IH|e e' t t' L L' H IH]; intros a b E.
  - destruct a; [|discriminate]. cbn in E. subst b. left. exists [], []. repeat split; constructor.
  - destruct a as [|c0 a]; cbn in E; [subst b; left; exists [], (c :: t'); repeat split; constructor; auto|]. injection E as <- E.
    destruct (IH a b E) as [(a' & b' & -> & A & B)|(a0 & b0 & -> & ->)]; [|right; now exists (c :: a0), b0]. left. exists (c :: a'), b'. repeat split; auto. now constructor.
  - destruct a as [|c0 a]; cbn in E; [subst b; left; exists [], (e' ++ t'); repeat split; constructor; auto|]. destruct L as [->| ->]; cbn in E; injection E as <- E.
    + destruct (IH a b E) as [(a' & b' & -> & A & B)|(a0 & b0 & -> & ->)]; [|right; now exists (c_lf :: a0), b0]. left. exists (e' ++ a'), b'. rewrite <- app_assoc. repeat split; auto.
      apply (sb_break P [c_lf] e' a a'); auto. now left.
    + destruct a as [|c1 a]; cbn in E; [right; exists [], t; now subst b|]. injection E as <- E.
      destruct (IH a b E) as [(a' & b' & -> & A & B)|(a0 & b0 & -> & ->)]; [|right; now exists (c_cr :: c_lf :: a0), b0]. left. exists (e' ++ a'), b'. rewrite <- app_assoc. repeat split; auto.
      apply (sb_break P [c_cr; c_lf] e' a a'); auto. now right.
Qed.
(** Texts that do not begin in the middle of the end of a line, or do not end there. *)
Definition first_fine (b : text) : Prop := forall r, b <> c_lf :: r.
Definition last_fine (a : text) : Prop := forall r, a <> r ++ [c_cr].
Lemma split_first a b x : first_fine b -> same_lines (a ++ b) x -> exists a' b', x = a' ++ b' /\ same_lines a a' /\ same_lines b b'.
Proof. intros F H. destruct (sb_split _ _ _ H a b eq_refl) as [?|(a0 & b0 & _ & E)]; auto. now apply F in E. Qed.
Lemma split_last a b x : last_fine a -> same_lines (a ++ b) x -> exists a' b', x = a' ++ b' /\ same_lines a a' /\ same_lines b b'.
Proof. intros F H. destruct (sb_split _ _ _ H a b eq_refl) as [?|(a0 & b0 & E & _)]; auto. now apply F in E. Qed.
Lemma cons_nb c t x : nb c -> same_lines (c :: t) x -> exists t', x = c :: t' /\ same_lines t t'.
Proof.
  intros [C D] H. inversion H as [|c0 t0 t' _ K|e e' t0 t' L L' K]; subst; [eauto|]. destruct L as [->| ->]; cbn in *; congruence.
Qed.
Lemma plain_app p b x : plain p -> same_lines (p ++ b) x -> exists b', x = p ++ b' /\ same_lines b b'.
Proof.
  intros P. revert x. induction P as [|c p C P IH]; intros x H; cbn [app] in *; [eauto|]. destruct (cons_nb _ _ _ C H) as (t' & -> & K). destruct (IH _ K) as (b' & -> & B). eauto.
Qed.
Lemma nil_lines x : same_lines [] x -> x = [].
Proof. intros H. remember ([] : text) as z eqn:Z. destruct H as [|c t t' C H|e e' t t' L L' H]; auto; [discriminate|]. destruct L as [->| ->]; discriminate. Qed.
Lemma plain_lines p x : plain p -> same_lines p x -> x = p.
Proof. intros P H. rewrite <- (app_nil_r p) in H. destruct (plain_app _ _ _ P H) as (b' & -> & B). apply nil_lines in B. subst. apply app_nil_r. Qed.
Lemma lines_nil x : same_lines x [] -> x = [].
Proof. intros H. apply nil_lines. now apply sb_sym. Qed.
Lemma one_line_same s s' : same_lines s s' -> ~ In c_lf s -> s' = s.
Proof.
  induction 1 as [|c t t' C H IH|e e' t t' L L' H IH]; intros N; auto; [rewrite IH; auto; intros J; apply N; now right|]. destruct N. apply in_or_app. left. destruct L as [->| ->]; cbn; auto.
Qed.
Lemma lines_in c s s' : same_lines s s' -> nb c -> In c s' -> In c s.
Proof.
  intros H [C D]. induction H as [|c0 t t' C0 H IH|e e' t t' L L' H IH]; auto; [intros [->|J]; [now left|right; auto]|]. intros J. apply in_app_or in J as [J|J]; apply in_or_app; [|right; auto].
  destruct L' as [->| ->]; cbn in J; intuition congruence.
Qed.
Lemma blank_lines w w' : same_lines w w' -> blank w -> blank w'.
Proof.
  unfold blank. induction 1 as [|c t t' C H IH|e e' t t' L L' H IH]; auto.
  - cbn [forallb]. intros E. apply andb_prop in E as [E F]. apply andb_true_intro. split; [exact E|now apply IH].
  - rewrite !forallb_app. intros E. apply andb_prop in E as [E F]. apply andb_true_intro. split; [|now apply IH]. destruct L' as [->| ->]; reflexivity.
Qed.
Lemma begins_lines p t t' : plain p -> same_lines t t' -> ~ begins p t -> ~ begins p t'.
Proof. intros P H N (r & ->). apply N. apply sb_sym in H. destruct (plain_app _ _ _ P H) as (b' & -> & _). now exists b'. Qed.
Ltac plainly := repeat (constructor; [split; discriminate|]); constructor.
Lemma open_plain : plain open_tag. Proof. plainly. Qed.
Lemma close_plain : plain close_tag. Proof. plainly. Qed.
Lemma escaped_plain : plain escaped_tag. Proof. plainly. Qed.

(** Characters of names and of numbers. *)
Lemma points_plain (f : char -> bool) v : f c_cr = false -> f c_lf = false -> forallb f v = true -> plain v.
Proof. intros F G H. apply Forall_forall. intros c I. rewrite forallb_forall in H. specialize (H c I). split; intros ->; congruence. Qed.
Lemma var_plain ext v : forallb (var_point ext) v = true -> plain v.
Proof. now apply points_plain. Qed.
Lemma fun_plain ext v : forallb (fun_point ext) v = true -> plain v.
Proof. now apply points_plain. Qed.
Lemma arg_plain ext v : forallb (arg_point ext) v = true -> plain v.
Proof. now apply points_plain. Qed.
Lemma numeral_plain t n : numeral t n -> plain t /\ t <> [].
Proof.
  assert (D : forall d, d < 10 -> nb (48 + d)) by (intros d Hd; unfold c_cr, c_lf; lia).
  induction 1 as [d Hd|t n d H [IH _] Hd]; split.
  - constructor; auto.
  - discriminate.
  - apply Forall_app. split; auto.
  - destruct t; discriminate.
Qed.

Lemma integer_plain t z : integer t z -> plain t /\ t <> [].
Proof. intros H. destruct H as [t n H|t n H|t n H]; apply numeral_plain in H as [H K]; split; auto; try discriminate; constructor; auto; split; discriminate. Qed.
Lemma builtin_plain s : In s builtin_names -> plain s /\ s <> [].
Proof.
  assert (A : Forall (fun s => forallb (fun c => negb (c =? c_cr) && negb (c =? c_lf)) s = true /\ s <> []) builtin_names) by (repeat (constructor; [split; [reflexivity|discriminate]|]); constructor).
  intros I. rewrite Forall_forall in A. destruct (A s I) as [A1 A2]. split; auto. now apply (points_plain (fun c => negb (c =? c_cr) && negb (c =? c_lf))).
Qed.

(** ** Templates *)
Definition arg_lines (a a' : rawarg) : Prop := match a, a' with AStr s, AStr s' => same_lines s s' | _, _ => a' = a end.
Definition parg_lines (a a' : parg) : Prop := fst a' = fst a /\ arg_lines (snd a) (snd a').
Definition tag_lines (g g' : tag) : Prop :=
  match g, g' with
  | GCall n pos named, GCall n' pos' named' => n' = n /\ Forall2 arg_lines pos pos' /\ Forall2 (fun a a' => fst a' = fst a /\ arg_lines (snd a) (snd a')) named named'
  | _, _ => g' = g
  end.
(** Texts that neither begin nor end with a part of the end of a line. *)
Definition edged (p : text) : Prop := first_fine p /\ p <> [] /\ last_fine p.
Lemma plain_edged p : plain p -> p <> [] -> edged p.
Proof.
  intros P N. split; [|split; auto].
  - intros r ->. inversion P as [|? ? [_ C]]. congruence.
  - intros r ->. apply Forall_app in P as [_ P]. inversion P as [|? ? [C _]]. congruence.
Qed.
Lemma edged_app p q : edged p -> edged q -> edged (p ++ q).
Proof.
  intros (F & N & L) (F' & N' & L'). split; [|split].
  - intros r E. destruct p as [|c p]; [congruence|]. injection E as -> E. now apply (F p).
  - destruct p; [congruence|discriminate].
  - intros r E. destruct (exists_last N') as (q0 & c & ->). rewrite app_assoc in E. apply app_inj_tail in E as [_ ->]. now apply (L' q0).
Qed.
Lemma edged_quotes s : edged ([c_quote] ++ s ++ [c_quote]).
Proof.
  split; [|split; [discriminate|]]; [discriminate|]. intros r E. rewrite app_assoc in E. now apply app_inj_tail in E as [_ E].
Qed.
Lemma first_app p b : edged p -> first_fine (p ++ b).
Proof. intros (F & N & _) r E. destruct p as [|c p]; [congruence|]. injection E as -> E. now apply (F p). Qed.
Lemma char_first c b : c <> c_lf -> first_fine (c :: b).
Proof. intros C r E. injection E as -> _. congruence. Qed.
Lemma arg_edged ext a t : arg_ok ext a -> arg_text a t -> edged t.
Proof.
  intros O H. destruct H as [v|s|z t H|s]; cbn in O.
  - apply plain_edged; [|discriminate]. constructor; [split; discriminate|]. now apply (var_plain ext).
  - apply edged_quotes.
  - apply integer_plain in H as [P N]. now apply plain_edged.
  - apply builtin_plain in O as [P N]. now apply plain_edged.
Qed.
Lemma parg_edged ext a p : parg_ok ext a -> parg_text a p -> edged p.
Proof.
  intros [O N] H. destruct H as [a t H|n a t H]; cbn in *; [eapply arg_edged; eauto|]. destruct N as [N P]. apply edged_app; [apply plain_edged; auto; now apply (arg_plain ext)|].
  apply (edged_app [c_eq]); [|eapply arg_edged; eauto]. apply plain_edged; [plainly|discriminate].
Qed.
Lemma arg_text_lines ext a t t' : arg_ok ext a -> arg_text a t -> same_lines t t' -> exists a', arg_text a' t' /\ arg_lines a a' /\ arg_ok ext a'.
Proof.
  intros O H L. destruct H as [v|s|z t H|s]; cbn in O.
  - apply plain_lines in L; [|constructor; [split; discriminate|now apply (var_plain ext)]]. subst. exists (AVar v). repeat split; auto. constructor.
  - apply (plain_app [c_quote]) in L as (b' & -> & L); [|plainly]. apply split_first in L as (s' & q & -> & S & Q); [|apply char_first; discriminate]. apply plain_lines in Q; [|plainly]. subst q.
    exists (AStr s'). repeat split; auto; [constructor|]. cbn. intros I. apply O. apply (lines_in c_quote s s'); auto. split; discriminate.
  - apply plain_lines in L; [|eapply integer_plain; eauto]. subst. exists (AInt z). repeat split; auto; [now constructor| |]; apply O.
  - apply plain_lines in L; [|now apply builtin_plain]. subst. exists (AIdent s). repeat split; auto. constructor.
Qed.
Lemma parg_text_lines ext a p p' : parg_ok ext a -> parg_text a p -> same_lines p p' -> exists a', parg_text a' p' /\ parg_lines a a' /\ parg_ok ext a'.
Proof.
  intros [O N] H L. destruct H as [a t H|n a t H]; cbn [fst snd] in *.
  - destruct (arg_text_lines ext a t p' O H L) as (a' & T & A & O'). exists (None, a'). repeat split; auto. now constructor.
  - destruct N as [N P]. apply plain_app in L as (b' & -> & L); [|now apply (arg_plain ext)]. apply (plain_app [c_eq]) in L as (t' & -> & L); [|plainly].
    destruct (arg_text_lines ext a t t' O H L) as (a' & T & A & O'). exists (Some n, a'). repeat split; auto. now constructor.
Qed.
Lemma comma_first t : first_fine ([c_comma] ++ t).
Proof. apply char_first. discriminate. Qed.
Lemma args_lines ext l t : loose_args l t -> Forall (parg_ok ext) l -> forall t', same_lines t t' -> exists l', loose_args l' t' /\ Forall2 parg_lines l l' /\ Forall (parg_ok ext) l'.
Proof.
  induction 1 as [w W|w1 a p w2 W1 W2 P|w l t W H IH|w1 a p w2 l t W1 W2 P H IH]; intros O t' L.
  - exists []. repeat split; constructor. now apply (blank_lines w).
  - inversion O; subst. assert (Ed := parg_edged _ _ _ H1 P). apply split_first in L as (w1' & r & -> & L1 & L); [|now apply first_app]. apply split_last in L as (p' & w2' & -> & L2 & L3); [|apply Ed].
    destruct (parg_text_lines ext a p p' H1 P L2) as (a' & P' & A & O'). exists [a']. repeat split; [|repeat constructor; apply A|repeat constructor; apply O'].
    apply la_last; auto; [now apply (blank_lines w1)|now apply (blank_lines w2)].
  - apply split_first in L as (w' & r & -> & L1 & L); [|apply comma_first]. apply (plain_app [c_comma]) in L as (r' & -> & L); [|plainly]. destruct (IH O _ L) as (l' & A & B & C).
    exists l'. repeat split; auto. apply la_skip; auto. now apply (blank_lines w).
  - inversion O; subst. assert (Ed := parg_edged _ _ _ H2 P). apply split_first in L as (w1' & r & -> & L1 & L); [|now apply first_app]. apply split_last in L as (p' & r' & -> & L2 & L); [|apply Ed].
    apply split_first in L as (w2' & r & -> & L3 & L); [|apply comma_first]. apply (plain_app [c_comma]) in L as (r' & -> & L); [|plainly]. destruct (IH H3 _ L) as (l' & A & B & C).
    destruct (parg_text_lines ext a p p' H2 P L2) as (a' & P' & A' & O'). exists (a' :: l'). repeat split; [|now constructor|now constructor].
    apply la_more; auto; [now apply (blank_lines w1)|now apply (blank_lines w2)].
Qed.
Lemma pargs_lines named : forall pos l', Forall2 parg_lines (pargs pos named) l' -> exists pos' named', l' = pargs pos' named' /\ Forall2 arg_lines pos pos' /\
  Forall2 (fun a a' => fst a' = fst a /\ arg_lines (snd a) (snd a')) named named'.
Proof.
  unfold pargs. induction pos as [|a pos IH]; intros l' H; cbn [map app] in H.
  - exists []. cbn. revert l' H. induction named as [|[n a] named IH]; intros l' H; cbn [map] in H; inversion H as [|? [n' a'] ? l0 [N A] F]; subst; [exists []; repeat split; constructor|].
    destruct (IH _ F) as (named' & -> & _ & Q). cbn in *. subst n'. exists ((n, a') :: named'). repeat split; auto.
  - inversion H as [|? [n' a'] ? l0 [N A] F]; subst. destruct (IH _ F) as (pos' & named' & -> & P & Q). cbn in *. subst n'. exists (a' :: pos'), named'. repeat split; auto.
Qed.
Lemma tag_edged ext g b : loose_tag ext g b -> edged b.
Proof.
  intros [v N P|name w pos named t N P W O A].
  - apply plain_edged; [|discriminate]. constructor; [split; discriminate|]. now apply (var_plain ext).
  - split; [|split].
    + apply first_app. apply plain_edged; auto. now apply (fun_plain ext).
    + destruct name; [congruence|discriminate].
    + intros r E. rewrite !app_assoc in E. now apply app_inj_tail in E as [_ E].
Qed.
Lemma loose_tag_lines ext g b b' : loose_tag ext g b -> same_lines b b' -> exists g', loose_tag ext g' b' /\ tag_lines g g'.
Proof.
  intros [v N P|name w pos named t N P W O A] L.
  - apply plain_lines in L; [|constructor; [split; discriminate|now apply (var_plain ext)]]. subst. exists (GVar v). split; [now constructor|reflexivity].
  - apply plain_app in L as (r & -> & L); [|now apply (fun_plain ext)]. apply split_first in L as (w' & r' & -> & L1 & L); [|apply char_first; discriminate].
    apply (plain_app [c_lparen]) in L as (r & -> & L); [|plainly]. apply split_first in L as (t' & q & -> & L2 & L); [|apply char_first; discriminate]. apply plain_lines in L; [|plainly]. subst q.
    destruct (args_lines ext _ _ A O _ L2) as (l' & A' & B & C). destruct (pargs_lines _ _ _ B) as (pos' & named' & -> & F & G).
    exists (GCall name pos' named'). split; [|repeat split; auto]. constructor; auto. now apply (blank_lines w).
Qed.

Lemma break_char e' t' raw rest : line_end e' -> first_tag t' raw rest -> first_tag (e' ++ t') (e' ++ raw) rest.
Proof.
  intros [->| ->] H; cbn [app].
  - apply ft_char; auto; intros (r & E); discriminate.
  - apply ft_char; [intros (r & E); discriminate|intros (r & E); discriminate|]. apply ft_char; auto; intros (r & E); discriminate.
Qed.
Lemma break_none e' t' raw : line_end e' -> no_tag t' raw -> no_tag (e' ++ t') (e' ++ raw).
Proof.
  intros [->| ->] H; cbn [app].
  - apply nt_char; auto; intros (r & E); discriminate.
  - apply nt_char; [intros (r & E); discriminate|intros (r & E); discriminate|]. apply nt_char; auto; intros (r & E); discriminate.
Qed.
Lemma first_tag_lines n : forall t raw rest t', (length t <= n)%nat -> first_tag t raw rest -> same_lines t t' ->
  exists raw' rest', first_tag t' raw' rest' /\ same_lines raw raw' /\ same_lines rest rest'.
Proof.
  induction n as [|n IH]; intros t raw rest t' Ln F L; [destruct t; [inversion F|cbn in Ln; lia]|]. inversion F as [r|c t0 raw0 r B1 B2 F0|t0 raw0 r B F0|r]; subst.
  - apply plain_app in L as (r' & -> & L); [|apply open_plain]. exists [], r'. repeat split; auto; constructor.
  - inversion L as [|c0 t1 t1' C L0|e e' t1 t1' E E' L0 X]; subst.
    + destruct (IH t0 raw0 rest t1') as (raw' & rest' & A & R & S); auto; [cbn in Ln; lia|]. exists (c :: raw'), rest'. repeat split; auto; [|now constructor].
      assert (L1 : same_lines (c :: t0) (c :: t1')) by now constructor. apply ft_char; auto; [eapply begins_lines; [apply open_plain|exact L1|auto]|eapply begins_lines; [apply escaped_plain|exact L1|auto]].
    + destruct E as [->| ->]; cbn [app] in X; injection X as <- X.
      * subst t1. destruct (IH t0 raw0 rest t1') as (raw' & rest' & A & R & S); auto; [cbn in Ln; lia|]. exists (e' ++ raw'), rest'. repeat split; auto; [now apply break_char|].
        apply (sb_break _ [c_lf] e'); auto. now left.
      * subst t0. inversion F0 as [|c1 t2 raw1 r2 B3 B4 F1| |]; subst. destruct (IH t1 raw1 rest t1') as (raw' & rest' & A & R & S); auto; [cbn in Ln; lia|].
        exists (e' ++ raw'), rest'. repeat split; auto; [now apply break_char|]. apply (sb_break _ [c_cr; c_lf] e'); auto. now right.
  - apply plain_app in L as (r' & -> & L); [|apply escaped_plain]. destruct (IH t0 raw0 rest r') as (raw' & rest' & A & R & S); auto; [cbn in Ln; lia|].
    exists (open_tag ++ raw'), rest'. repeat split; auto; [|apply sb_app; auto; repeat (constructor; try (split; discriminate))]. apply ft_escaped; auto. eapply begins_lines; [plainly|exact L|auto].
  - apply plain_app in L as (r' & -> & L); [|apply escaped_plain]. apply (plain_app [c_lbrace]) in L as (r2 & -> & L); [|plainly]. exists [c_lbrace], r2. repeat split; auto; [constructor|].
    repeat (constructor; try (split; discriminate)).
Qed.
Lemma no_tag_lines n : forall t raw t', (length t <= n)%nat -> no_tag t raw -> same_lines t t' -> exists raw', no_tag t' raw' /\ same_lines raw raw'.
Proof.
  induction n as [|n IH]; intros t raw t' Ln F L; [destruct t; [|cbn in Ln; lia]; inversion F; subst; apply nil_lines in L; subst; exists []; split; constructor|].
  inversion F as [|c t0 raw0 B1 B2 F0|t0 raw0 B F0]; subst; [apply nil_lines in L; subst; exists []; split; constructor| |].
  - inversion L as [|c0 t1 t1' C L0|e e' t1 t1' E E' L0 X]; subst.
    + destruct (IH t0 raw0 t1') as (raw' & A & R); auto; [cbn in Ln; lia|]. exists (c :: raw'). split; auto; [|now constructor].
      assert (L1 : same_lines (c :: t0) (c :: t1')) by now constructor. apply nt_char; auto; [eapply begins_lines; [apply open_plain|exact L1|auto]|eapply begins_lines; [apply escaped_plain|exact L1|auto]].
    + destruct E as [->| ->]; cbn [app] in X; injection X as <- X.
      * subst t1. destruct (IH t0 raw0 t1') as (raw' & A & R); auto; [cbn in Ln; lia|]. exists (e' ++ raw'). split; auto; [now apply break_none|].
        apply (sb_break _ [c_lf] e'); auto. now left.
      * subst t0. inversion F0 as [|c1 t2 raw1 B3 B4 F1|]; subst. destruct (IH t1 raw1 t1') as (raw' & A & R); auto; [cbn in Ln; lia|].
        exists (e' ++ raw'). split; auto; [now apply break_none|]. apply (sb_break _ [c_cr; c_lf] e'); auto. now right.
  - apply plain_app in L as (r' & -> & L); [|apply escaped_plain]. destruct (IH t0 raw0 r') as (raw' & A & R); auto; [cbn in Ln; lia|].
    exists (open_tag ++ raw'). split; auto; [|apply sb_app; auto; repeat (constructor; try (split; discriminate))]. apply nt_escaped; auto. eapply begins_lines; [plainly|exact L|auto].
Qed.
Lemma close_first t : first_fine (close_tag ++ t).
Proof. apply char_first. discriminate. Qed.
Definition piece_lines (x x' : text * tag) : Prop := same_lines (fst x) (fst x') /\ tag_lines (snd x) (snd x').
Lemma template_lines ext l r t : loose_template ext l r t -> forall t', same_lines t t' -> exists l' r', loose_template ext l' r' t' /\ Forall2 piece_lines l l' /\ same_lines r r'.
Proof.
  induction 1 as [t r N|t s g w1 b w2 l r t0 F W1 W2 G H IH]; intros t' L.
  - destruct (no_tag_lines _ t r t' (le_n _) N L) as (r' & N' & R). exists [], r'. repeat split; auto. now constructor.
  - destruct (first_tag_lines _ t s _ t' (le_n _) F L) as (s' & rest & F' & S & R). assert (Ed := tag_edged _ _ _ G).
    apply split_first in R as (w1' & r1 & -> & L1 & R); [|now apply first_app]. apply split_last in R as (b' & r2 & -> & L2 & R); [|apply Ed].
    apply split_first in R as (w2' & r3 & -> & L3 & R); [|apply close_first]. apply plain_app in R as (t0' & -> & R); [|apply close_plain].
    destruct (loose_tag_lines ext g b b' G L2) as (g' & G' & Gl). destruct (IH _ R) as (l' & r' & H' & P & Q). exists ((s', g') :: l'), r'. repeat split; auto; [|constructor; auto; split; auto].
    eapply lm_tag; eauto; [now apply (blank_lines w1)|now apply (blank_lines w2)].
Qed.
Lemma one_arg_same a a' : arg_lines a a' -> one_line_arg a -> a' = a.
Proof. destruct a, a'; cbn; try congruence. intros L N. f_equal. now apply one_line_same. Qed.
Lemma one_tag_same g g' : tag_lines g g' -> one_line_tag g -> g' = g.
Proof.
  destruct g as [v|n pos named], g' as [v'|n' pos' named']; cbn; try congruence. intros (-> & P & Q) [O1 O2]. f_equal.
  - clear Q O2. induction P as [|a a' l l' A P IH]; auto. inversion O1; subst. rewrite (one_arg_same a a'); auto. f_equal; auto.
  - clear P O1. induction Q as [|[m a] [m' a'] l l' [M A] Q IH]; auto. inversion O2; subst. cbn in *. subst m'. rewrite (one_arg_same a a'); auto. f_equal; auto.
Qed.
Lemma arg_lines_sym a a' : arg_lines a a' -> arg_lines a' a.
Proof. destruct a, a'; cbn; auto. apply sb_sym. Qed.
Lemma tag_lines_sym g g' : tag_lines g g' -> tag_lines g' g.
Proof.
  destruct g as [v|n pos named], g' as [v'|n' pos' named']; cbn; auto. intros (-> & P & Q). split; auto. split.
  - clear Q. induction P; constructor; auto using arg_lines_sym.
  - clear P. induction Q as [|a a' l l' [M A] Q IH]; constructor; auto. split; auto using arg_lines_sym.
Qed.
Lemma one_line_lines ext t t' : same_lines t t' -> one_line ext t -> one_line ext t'.
Proof.
  intros L O l' r' H. destruct (template_lines ext l' r' t' H t (sb_sym _ _ _ L)) as (l & r & H' & P & _). specialize (O l r H'). clear H H'.
  induction P as [|[s g] [s0 g0] l0 l1 [_ G] P IH]; constructor; inversion O; subst; auto. cbn in *. apply tag_lines_sym in G. now rewrite (one_tag_same _ _ G H1).
Qed.
Lemma raw_part_lines s s' : same_lines s s' -> Forall2 token_lines (raw_part s) (raw_part s').
Proof.
  intros L. destruct s as [|c s]; [apply nil_lines in L; subst; constructor|]. destruct s' as [|c' s']; [apply lines_nil in L; discriminate|]. cbn. constructor; constructor. exact L.
Qed.
Lemma tokens_lines_of tbl l r ks : template_tokens tbl l r ks -> forall l' r', Forall2 piece_lines l l' -> same_lines r r' -> Forall (fun sg => one_line_tag (snd sg)) l ->
  exists ks', template_tokens tbl l' r' ks' /\ Forall2 token_lines ks ks'.
Proof.
  induction 1 as [r|s g l r k ks D H IH]; intros l' r' P R O; inversion P as [|? [s' g'] ? l0 [S G] P']; subst.
  - exists (raw_part r'). split; [constructor|now apply raw_part_lines].
  - inversion O; subst. cbn [fst snd] in *. apply one_tag_same in G; auto. subst g'. destruct (IH _ _ P' R H3) as (ks' & T & F). exists (raw_part s' ++ k :: ks'). split; [now constructor|].
    apply Forall2_app; [now apply raw_part_lines|]. constructor; auto. constructor.
Qed.
Lemma parse_lines ext tbl file t t' toks : one_line ext t -> same_lines t t' -> parse_html ext tbl file t = Ok toks -> exists toks', parse_html ext tbl file t' = Ok toks' /\ tokens_lines toks toks'.
Proof.
  intros O L H. destruct (proj1 (parse_means ext tbl file t (map t_inner toks)) (ex_intro _ toks (conj H eq_refl))) as (l & r & T & K).
  destruct (template_lines ext l r t T t' L) as (l' & r' & T' & P & R). destruct (tokens_lines_of tbl l r _ K l' r' P R (O l r T)) as (ks' & K' & F).
  destruct (proj2 (parse_means ext tbl file t' ks') (ex_intro _ l' (ex_intro _ r' (conj T' K')))) as (toks' & E & M). exists toks'. split; auto. subst ks'. clear - F.
  unfold tokens_lines. revert toks' F. induction toks as [|k toks IH]; intros [|k' toks'] F; inversion F; subst; constructor; auto.
Qed.

(** Text arguments stand between quotes: templates with all quotes on the first line are fine. *)
Definition part_of (p t : text) : Prop := exists a b, t = a ++ p ++ b.
Lemma part_app p a t b : part_of p t -> part_of p (a ++ t ++ b).
Proof. intros (x & y & ->). exists (a ++ x), (y ++ b). now rewrite <- !app_assoc. Qed.
Lemma part_self p : part_of p p.
Proof. exists [], []. now rewrite app_nil_r. Qed.
Lemma part_right p a t : part_of p t -> part_of p (a ++ t).
Proof. intros H. rewrite <- (app_nil_r t). now apply part_app. Qed.
Lemma part_left p t b : part_of p t -> part_of p (t ++ b).
Proof. intros H. now apply (part_app p [] t b). Qed.
Notation quoted s := ([c_quote] ++ s ++ [c_quote]).
Lemma args_part l t : loose_args l t -> forall n s, In (n, AStr s) l -> part_of (quoted s) t.
Proof.
  assert (P : forall n s p, parg_text (n, AStr s) p -> part_of (quoted s) p).
  { intros n s p H. inversion H as [a tx A|m a tx A]; subst; inversion A; subst; [apply part_self|]. apply part_right, part_right. apply part_self. }
  induction 1 as [w W|w1 a p w2 W1 W2 Q|w l t W H IH|w1 a p w2 l t W1 W2 Q H IH]; intros n s I.
  - destruct I.
  - destruct I as [->|[]]. apply part_app. eapply P; eauto.
  - apply part_right, part_right. eapply IH; eauto.
  - destruct I as [->|I]; [apply part_app; eapply P; eauto|]. apply part_right, part_right, part_right, part_right. eapply IH; eauto.
Qed.
Lemma first_tag_part t raw rest : first_tag t raw rest -> exists a, t = a ++ rest.
Proof.
  induction 1 as [rest|c t raw rest B1 B2 H (a & ->)|t raw rest B H (a & ->)|rest]; [now exists open_tag|now exists (c :: a)|exists (escaped_tag ++ a); now rewrite <- app_assoc|].
  exists (escaped_tag ++ [c_lbrace]). now rewrite <- app_assoc.
Qed.
Lemma template_part ext l r t : loose_template ext l r t -> forall x name pos named n s, In (x, GCall name pos named) l -> In (n, AStr s) (pargs pos named) -> part_of (quoted s) t.
Proof.
  induction 1 as [t r N|t s0 g w1 b w2 l r t0 F W1 W2 G H IH]; intros x name pos named n s I J; [destruct I|]. apply first_tag_part in F as (a & ->). apply part_right, part_right. destruct I as [I|I].
  - injection I as -> ->. apply part_left. inversion G; subst. apply part_right, part_right, part_right, part_left. eapply args_part; eauto.
  - apply part_right, part_right, part_right. eapply IH; eauto.
Qed.
Lemma quotes_first ext u v : ~ In c_lf u -> ~ In c_quote v -> one_line ext (u ++ v).
Proof.
  intros U V l r H. assert (K : forall s, part_of (quoted s) (u ++ v) -> ~ In c_lf s).
  { intros s (a & b & E) L. clear H. revert a E. induction u as [|c u IH]; intros a E.
    - cbn in E. apply V. rewrite E. apply in_or_app. right. now left.
    - destruct a as [|c0 a].
      + clear IH. cbn [app] in E. injection E as _ E. assert (U' : ~ In c_lf u) by (intros X; apply U; now right). clear U. revert u U' E. induction s as [|d s IHs]; intros u U E; [destruct L|].
        destruct u as [|c1 u]; [cbn in E; apply V; rewrite E; right; rewrite <- app_assoc; apply in_or_app; right; now left|]. cbn [app] in E. injection E as -> E.
        destruct L as [->|L]; [apply U; now left|]. apply (IHs L u); auto. intros X. apply U. now right.
      + injection E as -> E. apply (IH (fun X => U (or_intror X)) a E). }
  apply Forall_forall. intros [x [w|name pos named]] I; cbn; [exact Logic.I|]. assert (Q := fun n s J => K s (template_part ext l r (u ++ v) H x name pos named n s I J)).
  split; apply Forall_forall.
  - intros a J. destruct a as [| | |]; cbn; auto. apply (Q None). unfold pargs. apply in_or_app. left. apply in_map_iff. eexists. split; [reflexivity|exact J].
  - intros [m a] J. cbn. destruct a as [|str| |]; cbn; auto. apply (Q (Some m)). unfold pargs. apply in_or_app. right. apply in_map_iff. exists (m, AStr str). split; [reflexivity|exact J].
Qed.
