(** SwapFacts.v -- replacing blocks of templates by others that print the same (C91). *)

From Coq Require Import String List NArith ZArith Bool Lia ZifyBool ZifyNat ZifyN Permutation.
From Verif Require Import Text TextFacts Utf8 Json Base Syntax Parse Tree Interp Build Disk Cli.
From Verif Require Import SpecScope SpecPage SpecRender SpecTemplate SpecLoop SpecBlocks SpecMarkdown SpecTree SpecUtf8 SpecDisk SpecProject SpecSite SpecExact SpecSwap.
From Verif Require Import Utf8Facts ScopeFacts InterpFacts RenderFacts SelectFacts BlockFacts TextFnFacts LoopFacts MarkdownFacts
  TreeFacts PathFacts CliFacts GrammarFacts SiteFacts ExactFacts.
Import ListNotations.

(** ** The tags of a template determine its blocks *)
Definition closes (s : list token) : Prop :=
  match s with [] => True | TFun (FEnd _ _) :: _ | TFun FElse :: _ => True | _ => False end.
Lemma tags_open b s : ~ closes (tags b ++ s).
Proof. destruct b as [ | | | | | | | | | |[v|c x y] |[v|c x y]]; intros X; exact X. Qed.
Lemma test_fn_inj c c' : test_fn c = test_fn c' -> c = c'.
Proof. destruct c, c'; cbn; intros E; try discriminate E; injection E; intros; now subst. Qed.
Definition parted (l : list block) : Prop := forall l' s s', closes s -> closes s' -> flat_map tags l ++ s = flat_map tags l' ++ s' -> l = l' /\ s = s'.
Definition split_off (b : block) : Prop := forall b' s s', tags b ++ s = tags b' ++ s' -> b = b' /\ s = s'.
Lemma parted_list l : Forall split_off l -> parted l.
Proof.
  induction 1 as [|b l B F IH]; intros l' s s' C C' E.
  - destruct l' as [|b' l']; [now split|]. cbn [flat_map app] in E. rewrite E, <- app_assoc in C. now apply tags_open in C.
  - destruct l' as [|b' l']. { cbn [flat_map app] in E. rewrite <- E, <- app_assoc in C'. now apply tags_open in C'. }
    cbn [flat_map] in E. rewrite <- !app_assoc in E. apply B in E. destruct E as [<- E]. apply IH in E; auto. destruct E as [<- <-]. now split.
Qed.
Lemma split_block b : split_off b.
Proof.
  induction b as [b S|p|label body IH|f body IH|c yes IH|c yes no IH1 IH2] using block_ind2; intros b' s s' E.
  - destruct b; try destruct S; destruct b'; cbn in E; try discriminate E;
      try (match type of E with TFun _ :: _ = TFun (test_fn ?c) :: _ => destruct c; discriminate E end); injection E; intros; subst; now split.
  - destruct b' as [ | | | | | | |p'| | |[v|c x y] ?|[v|c x y] ? ?]; cbn [tags app] in E; try discriminate E. injection E; intros; subst. now split.
  - destruct b' as [ | | | | | | | |label' body'| |[v|c x y] ?|[v|c x y] ? ?]; cbn [tags app] in E; try discriminate E. injection E as <- E. rewrite <- !app_assoc in E.
    apply (parted_list _ IH) in E; [|exact Logic.I|exact Logic.I]. destruct E as [<- E]. injection E as E. now subst.
  - destruct b' as [ | | | | | | | | |f' body'|[v|c x y] ?|[v|c x y] ? ?]; cbn [tags app] in E; try discriminate E. injection E as <- E. rewrite <- !app_assoc in E.
    apply (parted_list _ IH) in E; [|exact Logic.I|exact Logic.I]. destruct E as [<- E]. injection E as E. now subst.
  - destruct b' as [ | | | | | | | | | |c' yes'|c' yes' no']; cbn [tags app] in E; try (destruct c; discriminate E).
    + assert (K : test_fn c = test_fn c') by congruence. apply test_fn_inj in K. subst c'. injection E as E. rewrite <- !app_assoc in E.
      apply (parted_list _ IH) in E; [|exact Logic.I|exact Logic.I]. destruct E as [<- E]. injection E as E. now subst.
    + assert (K : test_fn c = test_fn c') by congruence. apply test_fn_inj in K. subst c'. injection E as E. rewrite <- !app_assoc in E.
      apply (parted_list _ IH) in E; [|exact Logic.I|exact Logic.I]. destruct E as [_ E]. discriminate E.
  - destruct b' as [ | | | | | | | | | |c' yes'|c' yes' no']; cbn [tags app] in E; try (destruct c; discriminate E).
    + assert (K : test_fn c = test_fn c') by congruence. apply test_fn_inj in K. subst c'. injection E as E. rewrite <- !app_assoc in E.
      apply (parted_list _ IH1) in E; [|exact Logic.I|exact Logic.I]. destruct E as [_ E]. discriminate E.
    + assert (K : test_fn c = test_fn c') by congruence. apply test_fn_inj in K. subst c'. injection E as E. rewrite <- !app_assoc in E.
      apply (parted_list _ IH1) in E; [|exact Logic.I|exact Logic.I]. destruct E as [<- E]. cbn [app] in E. injection E as E. rewrite <- !app_assoc in E.
      apply (parted_list _ IH2) in E; [|exact Logic.I|exact Logic.I]. destruct E as [<- E]. injection E as E. now subst.
Qed.
Lemma tags_inj l l' : flat_map tags l = flat_map tags l' -> l = l'.
Proof.
  intros E. assert (P : parted l) by (apply parted_list, Forall_forall; intros b _; apply split_block).
  destruct (P l' [] []) as [H _]; [exact Logic.I|exact Logic.I|now rewrite !app_nil_r|exact H].
Qed.
Lemma written_one ext fns t l l' : written ext fns t l -> written ext fns t l' -> l = l'.
Proof. intros W W'. apply tags_inj. eapply one_meaning; eassumption. Qed.

(** ** Printing *)
Section Swap.
  Variable date : option (text -> text -> option text).
  Variable J : text -> value -> Prop.
  Variable P : text -> list value -> Prop.
  Local Notation prints := (prints date J P).
  Local Notation repeats := (repeats date J P).
  Local Notation interchangeable := (interchangeable date J P).

  Lemma app_cut a : forall b sc secs o new secs', prints (a ++ b) sc secs o new secs' ->
    exists o1 n1 secs1 o2 n2, prints a sc secs o1 n1 secs1 /\ prints b (bind_vars n1 sc) secs1 o2 n2 secs' /\ o = o1 ++ o2 /\ new = n1 ++ n2.
  Proof.
    induction a as [|x a IH]; intros b sc secs o new secs' H.
    - exists [], [], secs, o, new. split; [constructor|]. rewrite bind_nil. now repeat split.
    - cbn [app] in H. inversion H; subst;
        match goal with K : SpecSite.prints _ _ _ (a ++ b) _ _ _ _ _ |- _ => destruct (IH _ _ _ _ _ _ K) as (o1 & n1 & s1 & o2 & n2 & A & B & -> & ->) end.
      + do 5 eexists. split; [eapply pr_simple; eassumption|]. split; [|split; [now rewrite app_assoc|now rewrite app_assoc]]. cbn [bind_vars] in *. now rewrite app_assoc.
      + do 5 eexists. split; [eapply pr_section; eassumption|]. split; [eassumption|]. split; [now rewrite app_assoc|reflexivity].
      + do 5 eexists. split; [eapply pr_for; eassumption|]. split; [eassumption|]. split; [now rewrite app_assoc|reflexivity].
      + do 5 eexists. split; [eapply pr_if; eassumption|]. split; [eassumption|]. split; [now rewrite app_assoc|reflexivity].
      + do 5 eexists. split; [eapply pr_skip; eassumption|]. split; [eassumption|]. split; reflexivity.
      + do 5 eexists. split; [eapply pr_then; eassumption|]. split; [eassumption|]. split; [now rewrite app_assoc|reflexivity].
      + do 5 eexists. split; [eapply pr_else; eassumption|]. split; [eassumption|]. split; [now rewrite app_assoc|reflexivity].
  Qed.
  Lemma app_join a : forall b sc secs o1 n1 secs1 o2 n2 secs', prints a sc secs o1 n1 secs1 -> prints b (bind_vars n1 sc) secs1 o2 n2 secs' ->
    prints (a ++ b) sc secs (o1 ++ o2) (n1 ++ n2) secs'.
  Proof.
    induction a as [|x a IH]; intros b sc secs o1 n1 secs1 o2 n2 secs' A B.
    - inversion A; subst. now rewrite bind_nil in B.
    - cbn [app]. inversion A; subst; rewrite <- ?app_assoc.
      + eapply pr_simple; [eassumption|]. eapply IH; [eassumption|]. cbn [bind_vars] in *. now rewrite <- app_assoc.
      + eapply pr_section; [eassumption|]. eapply IH; eassumption.
      + eapply pr_for; try eassumption. eapply IH; eassumption.
      + eapply pr_if; try eassumption. eapply IH; eassumption.
      + eapply pr_skip; try eassumption. eapply IH; eassumption.
      + eapply pr_then; try eassumption. eapply IH; eassumption.
      + eapply pr_else; try eassumption. eapply IH; eassumption.
  Qed.

  Lemma inter_refl l : interchangeable l l.
  Proof. split; [reflexivity|]. split; [reflexivity|]. intros; reflexivity. Qed.
  Lemma inter_sym l l' : interchangeable l l' -> interchangeable l' l.
  Proof. intros (A & N & B). split; [now symmetry|]. split; [now symmetry|]. intros. symmetry. apply B. Qed.
  Lemma inter_trans a b c : interchangeable a b -> interchangeable b c -> interchangeable a c.
  Proof. intros (A & N & B) (A' & N' & B'). split; [now rewrite A|]. split; [now rewrite N|]. intros. rewrite B. apply B'. Qed.
  Lemma inter_app a a' b b' : interchangeable a a' -> interchangeable b b' -> interchangeable (a ++ b) (a' ++ b').
  Proof.
    intros (A1 & A3 & A2) (B1 & B3 & B2). split; [rewrite !Forall_app; tauto|]. split; [rewrite !Forall_app; tauto|]. intros. split; intros H; apply app_cut in H;
      destruct H as (o1 & n1 & s1 & o2 & n2 & X & Y & -> & ->); (eapply app_join; [apply A2; exact X|apply B2; exact Y]).
  Qed.
  Lemma repeats_to body body' : (forall sc secs o new secs', prints body sc secs o new secs' -> prints body' sc secs o new secs') ->
    forall x vs sc secs o secs', repeats body x vs sc secs o secs' -> repeats body' x vs sc secs o secs'.
  Proof. intros H x vs. induction vs as [|v vs IH]; intros sc secs o secs' R; inversion R; subst; [constructor|]. econstructor; [apply H; eassumption|now apply IH]. Qed.
  Lemma block_inter (mk : list block -> block) body body' : (forall l, ~ simple (mk l)) -> (forall l l', (Forall named_calls l <-> Forall named_calls l') -> named_calls (mk l) -> named_calls (mk l')) ->
    (forall b1 b2 sc secs o new secs', (forall sc secs o new secs', prints b1 sc secs o new secs' -> prints b2 sc secs o new secs') -> (Forall simple b1 -> Forall simple b2) -> (Forall named_calls b1 -> Forall named_calls b2) ->
       prints [mk b1] sc secs o new secs' -> prints [mk b2] sc secs o new secs') ->
    interchangeable body body' -> interchangeable [mk body] [mk body'].
  Proof.
    intros N Q H (A & C & B). split; [split; intros F; inversion F; now apply N in H2|].
    split; [split; intros F; inversion F; (constructor; [|constructor]); [apply (Q body)|apply (Q body')]; auto; now symmetry|].
    intros. split; apply H; try (intros; now apply B); try apply A; apply C.
  Qed.
  Lemma named_section label l : named_calls (BSection label l) <-> Forall named_calls l.
  Proof. cbn [named_calls]. induction l as [|b l IH]; [split; [constructor|intros; exact Logic.I]|]. split; [intros [A B]; constructor; [exact A|now apply IH]|intros F; inversion F as [|? ? A B]; subst; split; [exact A|now apply IH]]. Qed.
  Lemma rewritten_inter l l' : rewritten date J P l l' -> interchangeable l l'.
  Proof.
    induction 1 as [l|l l' I|a a' b b' _ IH1 _ IH2|label body body' _ IH|f body body' _ IH|c yes yes' _ IH|c yes yes' no no' _ IH1 _ IH2|a b c _ IH1 _ IH2].
    - apply inter_refl.
    - exact I.
    - now apply inter_app.
    - apply (block_inter (BSection label)); [intros l X; exact X|intros b1 b2; rewrite !named_section; tauto| |exact IH]. intros b1 b2 sc secs o new secs' T _ _ X. inversion X; subst; [match goal with K : shows _ _ _ _ _ _ _ |- _ => inversion K end|].
      eapply pr_section; eauto.
    - apply (block_inter (BFor f)); [intros l X; exact X|intros b1 b2 _ _; exact Logic.I| |exact IH]. intros b1 b2 sc secs o new secs' T _ _ X. inversion X; subst; [match goal with K : shows _ _ _ _ _ _ _ |- _ => inversion K end|].
      eapply pr_for; try eassumption. eapply repeats_to; eassumption.
    - apply (block_inter (BIf c)); [intros l X; exact X|intros b1 b2 _ _; exact Logic.I| |exact IH]. intros b1 b2 sc secs o new secs' T S Nc X. inversion X; subst; [match goal with K : shows _ _ _ _ _ _ _ |- _ => inversion K end| |].
      + eapply pr_if; eauto.
      + eapply pr_skip; eauto.
    - apply (inter_trans _ [BIfElse c yes' no]).
      + apply (block_inter (fun y => BIfElse c y no)); [intros l X; exact X|intros b1 b2 _ _; exact Logic.I| |exact IH1]. intros b1 b2 sc secs o new secs' T S Nc X. inversion X; subst; [match goal with K : shows _ _ _ _ _ _ _ |- _ => inversion K end| |].
        * eapply pr_then; eauto.
        * eapply pr_else; eauto.
      + apply (block_inter (BIfElse c yes')); [intros l X; exact X|intros b1 b2 _ _; exact Logic.I| |exact IH2]. intros b1 b2 sc secs o new secs' T S Nc X. inversion X; subst; [match goal with K : shows _ _ _ _ _ _ _ |- _ => inversion K end| |].
        * eapply pr_then; eauto.
        * eapply pr_else; eauto.
    - now apply (inter_trans _ b).
  Qed.
End Swap.

(** ** Sites *)
Lemma rewritten_sym date J P l l' : rewritten date J P l l' -> rewritten date J P l' l.
Proof.
  induction 1; [apply rw_same|apply rw_swap; now apply inter_sym|now apply rw_app|now apply rw_section|now apply rw_for|now apply rw_if|now apply rw_ifelse|eapply rw_trans; eassumption].
Qed.
Lemma rewritten_text_sym h ps date J P vars b b' : rewritten_text h ps date J P vars b b' -> rewritten_text h ps date J P vars b' b.
Proof. intros (t & t' & l & l' & U & U' & W & W' & R). exists t', t, l', l. split; [exact U'|]. split; [exact U|]. split; [exact W'|]. split; [exact W|].
  destruct R as [R|R]; [left; now apply rewritten_sym|right]. intros vs secs o secs' V. now rewrite (R vs secs o secs' V). Qed.
Lemma swapped_sym h ps date J P vars e : forall name e', swapped h ps date J P vars name e e' -> swapped h ps date J P vars name e' e.
Proof.
  induction e as [b| |l IH] using ent_ind2; intros name e' H; inversion H as [| |? b1 b2 X R|? l1 l2 F]; subst.
  - constructor.
  - apply sw_file; [exact X|now apply rewritten_text_sym].
  - constructor.
  - constructor. clear H. induction F as [|[k x] [k' x'] l l' [E H] F IHF]; [constructor|]. inversion IH as [|? ? A B]; subst. constructor; [|now apply IHF].
    cbn in *. subst k'. split; [reflexivity|]. now apply A.
Qed.
Lemma prints_mono date (J J' : text -> value -> Prop) (P P' : text -> list value -> Prop) :
  (forall f j, J f j -> J' f j) -> (forall d vs, P d vs -> P' d vs) ->
  forall l sc secs o new secs', SpecSite.prints date J P l sc secs o new secs' -> SpecSite.prints date J' P' l sc secs o new secs'.
Proof.
  intros HJ HP l sc secs o new secs' H.
  induction H using prints_mut with (P0 := fun body x vs sc secs o secs' => SpecSite.repeats date J' P' body x vs sc secs o secs').
  - constructor.
  - eapply pr_simple; [|eassumption]. match goal with K : shows _ _ _ _ _ _ _ |- _ => inversion K; subst end; try (econstructor; eauto; fail).
  - eapply pr_section; eassumption.
  - eapply pr_for; try eassumption. match goal with K : loop_over _ _ _ _ _ |- _ => inversion K; subst end; [apply lv_dir|apply lv_json|apply lv_var]; auto.
  - eapply pr_if; eassumption.
  - eapply pr_skip; eassumption.
  - eapply pr_then; eassumption.
  - eapply pr_else; eassumption.
  - constructor.
  - econstructor; eassumption.
Qed.

Lemma utf8_text_fun b t t' : utf8_text b t -> utf8_text b t' -> t = t'.
Proof. intros H H'. apply decoding in H, H'. rewrite H in H'. now injection H'. Qed.
Lemma last_any (A : Type) (l : list A) a b : l <> [] -> last l a = last l b.
Proof. induction l as [|x [|y l] IH]; intros N; [contradiction|reflexivity|]. cbn [last] in *. apply IH. discriminate. Qed.

Section Transfer.
  Variable h : host.
  Variable ps : list plugin.
  Local Notation date := (h_date h).
  Variable J : text -> value -> Prop.
  Variable P : text -> list value -> Prop.
  Variable vars : list (text * value).
  Local Notation sw := (swapped h ps date J P vars).
  Local Notation rt := (rewritten_text h ps date J P vars).
  Local Notation whole := (same_whole date J P vars).

  Lemma at_swapped e ks x : ent_at e ks x -> forall name e', sw name e e' -> exists x', ent_at e' ks x' /\ sw (last ks name) x x'.
  Proof.
    induction 1 as [e|l k e ks x I A IH]; intros name e' S.
    - exists e'. split; [constructor|exact S].
    - inversion S as [| | |? ? l' F]; subst. destruct (Forall2_in_l _ _ _ _ F I) as ([k' e1] & I' & E & S'). cbn in E, S'. subst k'.
      destruct (IH _ _ S') as (x' & A' & X). exists x'. split; [econstructor; eassumption|]. destruct ks as [|k1 ks]; [exact X|].
      change (last (k :: k1 :: ks) name) with (last (k1 :: ks) name). rewrite (last_any _ (k1 :: ks) name k); [exact X|discriminate].
  Qed.
  Lemma file_swapped name b x : sw name (EFile b) x -> exists b', x = EFile b' /\ (b = b' \/ (has_ext name (lit "html") /\ rt b b')).
  Proof. inversion 1; subst; eexists; (split; [reflexivity|]); auto. Qed.
  Lemma file_at e e' ks name b : sw [] e e' -> ent_at e (ks ++ [name]) (EFile b) ->
    exists b', ent_at e' (ks ++ [name]) (EFile b') /\ (b = b' \/ (has_ext name (lit "html") /\ rt b b')).
  Proof.
    intros S A. destruct (at_swapped _ _ _ A _ _ S) as (x' & A' & X). rewrite last_last in X. apply file_swapped in X. destruct X as (b' & -> & X). now exists b'.
  Qed.
  Lemma dir_swapped e e' ks l : sw [] e e' -> ent_at e ks (EDir l) -> exists l', ent_at e' ks (EDir l') /\ Forall2 (fun x x' => fst x = fst x' /\ sw (fst x) (snd x) (snd x')) l l'.
  Proof. intros S A. destruct (at_swapped _ _ _ A _ _ S) as (x' & A' & X). inversion X; subst. eexists. split; eassumption. Qed.

  Lemma json_swapped e e' : sw [] e e' -> forall f j, site_json h e f j -> site_json h e' f j.
  Proof.
    intros S f j (ks & name & b & t & Pt & A & X & U & Hj). destruct (file_at _ _ _ _ _ S A) as (b' & A' & [<-|[Y _]]); [|discriminate (has_ext_unique _ _ _ X Y)].
    exists ks, name, b, t. auto.
  Qed.
  Section Vars.
  Lemma post_swapped e e' : sw [] e e' -> forall b v, post h ps vars e b v -> post h ps vars e' b v.
  Proof.
    intros S b v (t & fm & body & l & o & new & secs & out & l1 & l2 & U & M & W & Pr & R). exists t, fm, body, l, o, new, secs, out, l1, l2.
    split; [exact U|]. split; [exact M|]. split; [exact W|]. split; [|exact R]. eapply prints_mono; [|intros d vs X; exact X|exact Pr]. now apply json_swapped.
  Qed.
  Lemma entries_swapped e e' : sw [] e e' -> forall l vs, entry_posts h ps vars e l vs -> forall l', Forall2 (fun x x' => fst x = fst x' /\ sw (fst x) (snd x) (snd x')) l l' ->
    entry_posts h ps vars e' l' vs.
  Proof.
    intros S. induction 1 as [|name b v l vs X Po En IH|name x l vs N En IH]; intros l' F; inversion F as [|? [k' x'] ? l2 [E X'] F']; subst.
    - constructor.
    - cbn in E, X'. subst k'. apply file_swapped in X'. destruct X' as (b' & -> & [<-|[Y _]]); [|discriminate (has_ext_unique _ _ _ X Y)]. apply ep_post; [exact X|eapply post_swapped; eassumption|now apply IH].
    - cbn in E, X'. subst k'. apply ep_other; [|now apply IH]. intros (Y & b' & ->). apply N. split; [exact Y|]. inversion X'; subst; eauto.
  Qed.
  Lemma posts_swapped e e' : sw [] e e' -> forall d vs, site_posts h ps vars e d vs -> site_posts h ps vars e' d vs.
  Proof.
    intros S d vs (ks & l & Pt & A & En). destruct (dir_swapped _ _ _ _ S A) as (l' & A' & F). exists ks, l'. split; [exact Pt|]. split; [exact A'|]. eapply entries_swapped; eassumption.
  Qed.

  Variable e e' : ent.
  Hypothesis S : sw [] e e'.
  Hypothesis HJ : forall f j, J f j <-> site_json h e f j.
  Hypothesis HP : forall d vs, P d vs <-> site_posts h ps vars e d vs.
  Let S' : sw [] e' e := swapped_sym _ _ _ _ _ _ _ _ _ S.

  Lemma same_says l vs secs o secs' : says h ps vars e l vs secs o secs' -> says h ps vars e' l vs secs o secs'.
  Proof. intros [new Pr]. exists new. eapply prints_mono; [exact (json_swapped _ _ S)|exact (posts_swapped _ _ S)|exact Pr]. Qed.
  Lemma says_swapped l l' vs secs o secs' : rewritten date J P l l' \/ whole l l' -> vs = vars \/ (exists v, vs = vars ++ [(lit "self", v)]) ->
    says h ps vars e l vs secs o secs' -> says h ps vars e' l' vs secs o secs'.
  Proof.
    intros R V [new Pr]. apply same_says.
    assert (Pr' : SpecSite.prints date J P l [vs] secs o new secs') by (eapply prints_mono; [intros f j; apply HJ|intros d us; apply HP|exact Pr]).
    assert (X : exists new', SpecSite.prints date J P l' [vs] secs o new' secs').
    { destruct R as [R|R]; [exists new; now apply (rewritten_inter _ _ _ _ _ R)|]. apply (R vs secs o secs' V). now exists new. }
    destruct X as [new' X]. exists new'. eapply prints_mono; [intros f j; apply HJ|intros d us; apply HP|exact X].
  Qed.
  Lemma template_swapped name ks l : template_at h ps e name ks l -> exists l', template_at h ps e' name ks l' /\ (rewritten date J P l l' \/ whole l l').
  Proof.
    intros (ks1 & ks2 & b & t & -> & A & N & U & W). destruct (file_at _ _ _ _ _ S A) as (b' & A' & T).
    assert (N' : forall a c x, ks2 = a ++ c -> a <> [] -> ~ ent_at e' (ks1 ++ a ++ [name]) x).
    { intros a c x E Ne X. destruct (at_swapped _ _ _ X _ _ S') as (x' & X' & _). now apply (N a c x'). }
    destruct T as [<-|(Y & t1 & t' & l1 & l' & U1 & U' & W1 & W' & R)].
    - exists l. split; [|left; apply rw_same]. exists ks1, ks2, b, t. auto.
    - assert (t1 = t) as -> by (eapply utf8_text_fun; eassumption). assert (l1 = l) as -> by (eapply written_one; eassumption).
      exists l'. split; [|exact R]. exists ks1, ks2, b', t'. auto.
  Qed.
  Lemma page_swapped ks name b b' name' o : b = b' \/ (has_ext name (lit "html") /\ rt b b') -> ~ is_template name ->
    page_of_file h ps vars e ks name b name' o -> page_of_file h ps vars e' ks name b' name' o.
  Proof.
    intros T Nt Pg. inversion Pg as [? ? t page root o1 secs ? secs' X N U W Tr S1 S2|stem ? v page root o1 secs ? secs' Ns Po Tp Tr S1 S2|? ? C]; subst.
    - destruct (template_swapped _ _ _ Tr) as (root' & Tr' & Rr). destruct T as [<-|(_ & t1 & t' & l1 & l' & U1 & U' & W1 & W' & R)].
      + eapply pf_html; try eassumption; [eapply same_says; eassumption|eapply says_swapped; [eassumption|auto; eauto|eassumption]].
      + assert (t1 = t) as -> by (eapply utf8_text_fun; eassumption). assert (l1 = page) as -> by (eapply written_one; eassumption).
        eapply pf_html; try eassumption; (eapply says_swapped; [eassumption|auto; eauto|eassumption]).
    - assert (X : has_ext (stem ++ lit ".md") (lit "md")) by (exists stem; repeat split; [exact Ns|vm_compute; intuition discriminate]).
      destruct T as [<-|(Y & _)]; [|discriminate (has_ext_unique _ _ _ X Y)].
      destruct (template_swapped _ _ _ Tr) as (root' & Tr' & Rr). destruct (template_swapped _ _ _ Tp) as (page' & Tp' & Rp).
      eapply pf_md; try eassumption; [eapply post_swapped; eassumption|eapply says_swapped; [eassumption|auto; eauto|eassumption]|eapply says_swapped; [eassumption|auto; eauto|eassumption]].
    - destruct T as [<-|(Y & _)]; [now apply pf_copy|]. destruct C as [C|[C|(C & _)]]; [contradiction|discriminate (has_ext_unique _ _ _ C Y)|contradiction].
  Qed.
  Lemma published_swapped ks name o : ~ is_template name -> published h ps vars e ks name o -> published h ps vars e' ks name o.
  Proof.
    intros Nt (src & b & A & Pg). destruct (file_at _ _ _ _ _ S A) as (b' & A' & T). exists src, b'. split; [exact A'|]. eapply page_swapped; [exact T| |exact Pg].
    inversion Pg; subst; auto. intros [X|X]; apply (f_equal (@rev _)) in X; rewrite rev_app_distr in X; discriminate X.
  Qed.
  Lemma published_some ks name o : published h ps vars e ks name o -> exists o', published h ps vars e' ks name o'.
  Proof.
    intros (src & b & A & Pg). destruct (file_at _ _ _ _ _ S A) as (b' & A' & T).
    assert (D : is_template src \/ ~ is_template src).
    { unfold is_template. destruct (CliFacts.text_eqb_spec src (lit "root.html")) as [->|N1]; [auto|]. destruct (CliFacts.text_eqb_spec src (lit "md.html")) as [->|N2]; [auto|tauto]. }
    destruct D as [D|D].
    - assert (name = src) as -> by (inversion Pg; subst; try contradiction; auto; destruct D as [X|X]; apply (f_equal (@rev _)) in X; rewrite rev_app_distr in X; discriminate X).
      exists b', src, b'. split; [exact A'|]. apply pf_copy. now left.
    - exists o, src, b'. split; [exact A'|]. eapply page_swapped; eassumption.
  Qed.
  Lemma order_swapped : site_in_order h ps vars e -> site_in_order h ps vars e'.
  Proof.
    intros ([l E] & No & F). split; [|split].
    - destruct (dir_swapped e e' [] l S) as (l' & A & _); [rewrite E; constructor|]. inversion A; subst. now exists l'.
    - intros ks A. destruct (at_swapped _ _ _ A _ _ S') as (x & A' & X). inversion X; subst. now apply No in A'.
    - intros ks name b' A'. destruct (file_at _ _ _ _ _ S' A') as (b & A & T'). destruct (F _ _ _ A) as ((name' & o & Pg) & Tm & Js).
      assert (T : b = b' \/ (has_ext name (lit "html") /\ rt b b')) by (destruct T' as [->|[Y R]]; [now left|right; split; [exact Y|now apply rewritten_text_sym]]).
      assert (D : is_template name \/ ~ is_template name).
      { unfold is_template. destruct (CliFacts.text_eqb_spec name (lit "root.html")) as [->|N1]; [auto|]. destruct (CliFacts.text_eqb_spec name (lit "md.html")) as [->|N2]; [auto|tauto]. }
      split; [|split].
      + destruct D as [D|D]; [exists name, b'; now apply pf_copy; left|]. exists name', o. eapply page_swapped; eassumption.
      + intros It. destruct T as [<-|(_ & t & t' & l1 & l2 & _ & U' & _ & W' & _)]; [now apply Tm|eauto].
      + intros X. destruct T as [<-|(Y & _)]; [now apply Js|discriminate (has_ext_unique _ _ _ X Y)].
  Qed.
  End Vars.
End Transfer.
