(** UnusedFacts.v -- leaving out sections that nothing asks for (C109). *)

From Coq Require Import String List NArith ZArith Bool Lia ZifyBool ZifyNat ZifyN.
From Verif Require Import Text TextFacts Utf8 Json Base Syntax Parse Tree Interp Build Disk Cli.
From Verif Require Import SpecScope SpecPage SpecRender SpecTemplate SpecLoop SpecBlocks SpecMarkdown SpecTree SpecUtf8 SpecDisk SpecProject SpecSite SpecExact SpecSwap SpecSections SpecUnused.
From Verif Require Import Utf8Facts ScopeFacts InterpFacts RenderFacts SelectFacts BlockFacts TextFnFacts LoopFacts MarkdownFacts
  TreeFacts PathFacts CliFacts GrammarFacts BuildTotal SiteFacts ExactFacts SwapFacts LocalFacts NeedsFacts ReadsFacts SiteDisk SwapLaws SectionFacts.
Import ListNotations.

Section Print.
  Variable date : option (text -> text -> option text).
  Variable J : text -> value -> Prop.
  Variable P : text -> list value -> Prop.
  Variable asked : text -> Prop.
  Local Notation prints := (prints date J P).
  Local Notation repeats := (repeats date J P).
  Definition on_asked (s s' : sections) : Prop := forall n, asked n -> same_at n s s'.
  Definition asks (l : list block) : Prop := forall n, In n (flat_map inserted l) -> asked n.
  Definition drops (l l' : list block) : Prop :=
    forall sc secs o new secs', sc <> [] -> prints l sc secs o new secs' -> forall s2, on_asked secs s2 ->
      exists o2 s2', prints l' sc s2 o2 new s2' /\ on_asked secs' s2'.
  Lemma drops_refl l : quiet l -> asks l -> drops l l.
  Proof.
    intros Q A sc secs o new secs' _ H s2 S. destruct (carry _ _ _ _ _ _ _ _ _ H Q) as (ad & -> & _ & K). exists o, (s2 ++ ad). split; [apply K; intros n I; apply S, A, I|].
    intros n I. apply same_app, S, I.
  Qed.
  Lemma drops_section label body : quiet body -> (forall n, In n (sections_of (BSection label body)) -> ~ asked n) -> drops [BSection label body] [].
  Proof.
    intros Q N sc secs o new secs' _ H s2 S. inversion H as [|? ? ? ? ? ? ? ? ? ? Sh| ? ? ? ? ? oa na sa ob nb sb Ha Hb| | | | |]; subst; [inversion Sh|]. inversion Hb; subst.
    destruct (carry _ _ _ _ _ _ _ _ _ Ha Q) as (ad & -> & I & _). exists [], s2. split; [constructor|]. intros n A. unfold same_at. rewrite <- (S n A). symmetry. rewrite <- app_assoc. apply same_more.
    rewrite map_app. intros X. apply (N n); [|exact A]. apply in_app_iff in X. destruct X as [X|[<-|[]]]; [right; now apply I|now left].
  Qed.
  Lemma drops_app a a' b b' : drops a a' -> drops b b' -> drops (a ++ b) (a' ++ b').
  Proof.
    intros A B sc secs o new secs' N H s2 S. apply app_cut in H. destruct H as (o1 & n1 & s1 & o2 & n2 & Ha & Hb & -> & ->).
    destruct (A _ _ _ _ _ N Ha s2 S) as (o1' & s1' & Ha' & S1). destruct (B _ _ _ _ _ (bind_some n1 sc N) Hb s1' S1) as (o2' & s3 & Hb' & S3).
    exists (o1' ++ o2'), s3. split; [eapply app_join; eassumption|exact S3].
  Qed.
  Lemma drops_repeats body body' : drops body body' -> forall x vs sc secs o secs', repeats body x vs sc secs o secs' -> forall s2, on_asked secs s2 ->
    exists o2 s2', repeats body' x vs sc s2 o2 s2' /\ on_asked secs' s2'.
  Proof.
    intros M x vs. induction vs as [|v vs IH]; intros sc secs o secs' H s2 S; inversion H as [|? ? ? ? ? ? oa na sa ob sb Ha Hb]; subst.
    - exists [], s2. split; [constructor|exact S].
    - destruct (M _ _ _ _ _ (cons_some _ _) Ha s2 S) as (o1 & s1 & H1 & S1). destruct (IH _ _ _ _ Hb s1 S1) as (o2 & s3 & H2 & S2).
      exists (o1 ++ o2), s3. split; [econstructor; eassumption|exact S2].
  Qed.
  Lemma drops_for f body body' : drops body body' -> drops [BFor f body] [BFor f body'].
  Proof.
    intros M sc secs o new secs' N H s2 S. inversion H; subst; [match goal with K : shows _ _ _ _ _ _ _ |- _ => inversion K end|].
    match goal with K : SpecSite.prints _ _ _ [] _ _ _ _ _ |- _ => inversion K; subst end.
    match goal with K : SpecSite.repeats _ _ _ _ _ _ _ _ _ _ |- _ => destruct (drops_repeats _ _ M _ _ _ _ _ _ K s2 S) as (o2 & s3 & H2 & S2) end.
    exists (o2 ++ []), s3. split; [eapply pr_for; try eassumption; constructor|exact S2].
  Qed.
  Lemma drops_if c yes yes' : (Forall simple yes -> Forall simple yes') -> (Forall named_calls yes -> Forall named_calls yes') -> drops yes yes' -> drops [BIf c yes] [BIf c yes'].
  Proof.
    intros Si Na M sc secs o new secs' N H s2 S. inversion H; subst; [match goal with K : shows _ _ _ _ _ _ _ |- _ => inversion K end| |];
      match goal with K : SpecSite.prints _ _ _ [] _ _ _ _ _ |- _ => inversion K; subst end.
    - match goal with K : SpecSite.prints _ _ _ yes _ _ _ _ _ |- _ => destruct (M _ _ _ _ _ (cons_some _ _) K s2 S) as (o1 & s1 & H1 & S1) end.
      exists (o1 ++ []), s1. split; [eapply pr_if; eauto; constructor|exact S1].
    - exists [], s2. split; [apply pr_skip; auto; constructor|exact S].
  Qed.
  Lemma drops_ifelse c yes yes' no no' : (Forall simple yes -> Forall simple yes') -> (Forall named_calls yes -> Forall named_calls yes') -> drops yes yes' ->
    (Forall simple no -> Forall simple no') -> (Forall named_calls no -> Forall named_calls no') -> drops no no' -> drops [BIfElse c yes no] [BIfElse c yes' no'].
  Proof.
    intros Si Na M Si' Na' M' sc secs o new secs' N H s2 S. inversion H; subst; [match goal with K : shows _ _ _ _ _ _ _ |- _ => inversion K end| |];
      match goal with K : SpecSite.prints _ _ _ [] _ _ _ _ _ |- _ => inversion K; subst end.
    - match goal with K : SpecSite.prints _ _ _ yes _ _ _ _ _ |- _ => destruct (M _ _ _ _ _ (cons_some _ _) K s2 S) as (o1 & s1 & H1 & S1) end.
      exists (o1 ++ []), s1. split; [eapply pr_then; eauto; constructor|exact S1].
    - match goal with K : SpecSite.prints _ _ _ no _ _ _ _ _ |- _ => destruct (M' _ _ _ _ _ (cons_some _ _) K s2 S) as (o1 & s1 & H1 & S1) end.
      exists (o1 ++ []), s1. split; [eapply pr_else; eauto; constructor|exact S1].
  Qed.
  Lemma fewer_drops l l' : fewer asked l l' -> (Forall simple l -> Forall simple l') /\ (Forall named_calls l -> Forall named_calls l') /\ (quiet l -> asks l -> drops l l').
  Proof.
    induction 1 as [l|label body N|a a' b b' _ (S1 & N1 & M1) _ (S2 & N2 & M2)|f body body' _ (S1 & N1 & M1)|c yes yes' _ (S1 & N1 & M1)|c yes yes' no no' _ (S1 & N1 & M1) _ (S2 & N2 & M2)].
    - split; [auto|]. split; [auto|]. apply drops_refl.
    - split; [constructor|]. split; [constructor|]. intros Q A. apply quiet_cons in Q. apply drops_section; [exact (proj1 Q)|exact N].
    - split; [rewrite !Forall_app; tauto|]. split; [rewrite !Forall_app; tauto|]. intros Q A. apply quiet_app in Q. destruct Q as [Qa Qb].
      apply drops_app; [apply M1|apply M2]; auto; intros n I; apply A; rewrite flat_map_app; apply in_or_app; auto.
    - split; [intros F; inversion F; contradiction|]. split; [intros _; repeat constructor|]. intros Q A. apply quiet_cons in Q. apply drops_for, M1; [exact (proj1 Q)|].
      intros n I. apply A. cbn [flat_map inserted]. now rewrite app_nil_r.
    - split; [intros F; inversion F; contradiction|]. split; [intros _; repeat constructor|]. intros Q A. apply quiet_cons in Q. apply drops_if; auto. apply M1; [exact (proj1 Q)|].
      intros n I. apply A. cbn [flat_map inserted]. now rewrite app_nil_r.
    - split; [intros F; inversion F; contradiction|]. split; [intros _; repeat constructor|]. intros Q A. apply quiet_cons in Q. destruct Q as [Q _]. cbn [calls] in Q. apply Forall_app in Q. destruct Q as [Qa Qb].
      apply drops_ifelse; auto; [apply M1|apply M2]; auto; intros n I; apply A; cbn [flat_map inserted]; rewrite app_nil_r; apply in_or_app; auto.
  Qed.
End Print.

(** ** The templates and pages of a directory are determined *)
Section One.
  Variable h : host.
  Variable ps : list plugin.
  Variable vars : list (text * value).
  Variable e : ent.
  Hypothesis D : ent_distinct e.
  Lemma template_one name ks l l' : template_at h ps e name ks l -> template_at h ps e name ks l' -> l = l'.
  Proof.
    intros (k1 & k2 & b & t & E & A & N & U & W) (k1' & k2' & b' & t' & E' & A' & N' & U' & W').
    assert (X : k1 = k1').
    { rewrite E in E'. destruct (app_eq_app _ _ _ _ E') as [m [[E1 E2]|[E1 E2]]]; destruct m as [|x m]; try (rewrite app_nil_r in E1; now subst); exfalso.
      - subst k1. rewrite <- app_assoc in A. apply (N' (x :: m) k2 (EFile b)); [exact E2|discriminate|exact A].
      - subst k1'. rewrite <- app_assoc in A'. apply (N (x :: m) k2' (EFile b')); [exact E2|discriminate|exact A']. }
    subst k1'. assert (Y := ent_unique _ _ _ A D _ A'). injection Y as <-. assert (t' = t) as -> by (eapply utf8_text_fun; eassumption). eapply written_one; eassumption.
  Qed.
  Lemma says_one l vs secs o s o' s' : says h ps vars e l vs secs o s -> says h ps vars e l vs secs o' s' -> o = o' /\ s = s'.
  Proof.
    intros [n A] [n' A']. destruct (prints_one h _ _ (site_json_one h e D) (site_posts_one h ps vars e D) _ _ _ _ _ _ A _ _ _ A') as (-> & _ & ->). now split.
  Qed.
  Lemma page_one ks src b name o name' o' : page_of_file h ps vars e ks src b name o -> page_of_file h ps vars e ks src b name' o' -> ~ is_template src -> name = name' /\ o = o'.
  Proof.
    assert (Md : forall stem, stem <> [] -> has_ext (stem ++ lit ".md") (lit "md")) by (intros stem N; exists stem; repeat split; [exact N|vm_compute; intuition discriminate]).
    intros A B Nt. inversion A as [? ? t page root o1 secs ? secs' X N U W Tr S1 S2|stem ? v page root o1 secs ? secs' Ns Po Tp Tr S1 S2|? ? C]; subst;
      inversion B as [? ? t' page' root' o1' secs2 ? secs2' X' N' U' W' Tr' S1' S2'|stem' ? v' page' root' o1' secs2 ? secs2' Ns' Po' Tp' Tr' S1' S2'|? ? C']; subst.
    - assert (t' = t) as -> by (eapply utf8_text_fun; eassumption). assert (page' = page) as -> by (eapply written_one; eassumption). rewrite (template_one _ _ _ _ Tr' Tr) in S2'.
      destruct (says_one _ _ _ _ _ _ _ S1 S1') as [_ <-]. destruct (says_one _ _ _ _ _ _ _ S2 S2') as [<- _]. now split.
    - match goal with E : _ = _ |- _ => idtac | _ => idtac end. discriminate (has_ext_unique _ _ _ X (Md _ Ns')).
    - destruct C' as [C|[C|(C & _)]]; [contradiction|discriminate (has_ext_unique _ _ _ C X)|contradiction].
    - discriminate (has_ext_unique _ _ _ X' (Md _ Ns)).
    - match goal with E : _ ++ _ = _ ++ _ |- _ => apply app_inv_tail in E; subst end. assert (v' = v) as -> by (eapply post_one; eassumption).
      rewrite (template_one _ _ _ _ Tp' Tp) in S1'. rewrite (template_one _ _ _ _ Tr' Tr) in S2'.
      destruct (says_one _ _ _ _ _ _ _ S1 S1') as [_ <-]. destruct (says_one _ _ _ _ _ _ _ S2 S2') as [<- _]. now split.
    - destruct C' as [C|[C|(_ & C & _)]]; [contradiction|discriminate (has_ext_unique _ _ _ C (Md _ Ns))|destruct (C (Md _ Ns))].
    - destruct C as [C|[C|(C & _)]]; [contradiction|discriminate (has_ext_unique _ _ _ C X')|contradiction].
    - destruct C as [C|[C|(_ & C & _)]]; [contradiction|discriminate (has_ext_unique _ _ _ C (Md _ Ns'))|destruct (C (Md _ Ns'))].
    - now split.
  Qed.
End One.

(** ** Sites *)
Section Transfer.
  Variable h : host.
  Variable ps : list plugin.
  Hypothesis G : plugins_give unmoved ps.
  Variable vars : list (text * value).
  Variable asked : text -> Prop.
  Local Notation th := (thinned h ps asked).
  Definition thin_or_same (name : text) (b b' : bytes) : Prop := b = b' \/ (has_ext name (lit "html") /\ name <> lit "root.html" /\ fewer_text h ps asked b b').

  Lemma at_thin e ks x : ent_at e ks x -> forall name e', th name e e' -> exists x', ent_at e' ks x' /\ th (last ks name) x x'.
  Proof.
    induction 1 as [e|l k e ks x I A IH]; intros name e' S.
    - exists e'. split; [constructor|exact S].
    - inversion S as [| | |? ? l' F]; subst. destruct (Forall2_in_l _ _ _ _ F I) as ([k' e1] & I' & E & S'). cbn in E, S'. subst k'.
      destruct (IH _ _ S') as (x' & A' & X). exists x'. split; [econstructor; eassumption|]. destruct ks as [|k1 ks]; [exact X|].
      change (last (k :: k1 :: ks) name) with (last (k1 :: ks) name). rewrite (last_any _ (k1 :: ks) name k); [exact X|discriminate].
  Qed.
  Lemma at_thick e' ks x' : ent_at e' ks x' -> forall name e, th name e e' -> exists x, ent_at e ks x /\ th (last ks name) x x'.
  Proof.
    induction 1 as [e'|l' k e' ks x' I A IH]; intros name e S.
    - exists e. split; [constructor|exact S].
    - inversion S as [| | |? l ? F]; subst. destruct (Forall2_in_r _ _ _ _ F I) as ([k' e1] & I' & E & S'). cbn in E, S'. subst k'.
      destruct (IH _ _ S') as (x & A' & X). exists x. split; [econstructor; eassumption|]. destruct ks as [|k1 ks]; [exact X|].
      change (last (k :: k1 :: ks) name) with (last (k1 :: ks) name). rewrite (last_any _ (k1 :: ks) name k); [exact X|discriminate].
  Qed.
  Lemma file_thin name b x : th name (EFile b) x -> exists b', x = EFile b' /\ thin_or_same name b b'.
  Proof. inversion 1; subst; eexists; (split; [reflexivity|]); unfold thin_or_same; auto. Qed.
  Lemma file_thick name x b' : th name x (EFile b') -> exists b, x = EFile b /\ thin_or_same name b b'.
  Proof. inversion 1; subst; eexists; (split; [reflexivity|]); unfold thin_or_same; auto. Qed.
  Lemma thin_at e e' ks name b : th [] e e' -> ent_at e (ks ++ [name]) (EFile b) -> exists b', ent_at e' (ks ++ [name]) (EFile b') /\ thin_or_same name b b'.
  Proof.
    intros S A. destruct (at_thin _ _ _ A _ _ S) as (x' & A' & X). rewrite last_last in X. apply file_thin in X. destruct X as (b' & -> & X). now exists b'.
  Qed.
  Lemma thick_at e e' ks name b' : th [] e e' -> ent_at e' (ks ++ [name]) (EFile b') -> exists b, ent_at e (ks ++ [name]) (EFile b) /\ thin_or_same name b b'.
  Proof.
    intros S A. destruct (at_thick _ _ _ A _ _ S) as (x & A' & X). rewrite last_last in X. apply file_thick in X. destruct X as (b & -> & X). now exists b.
  Qed.
  Lemma dir_thin e e' ks l : th [] e e' -> ent_at e ks (EDir l) -> exists l', ent_at e' ks (EDir l') /\ Forall2 (fun x x' => fst x = fst x' /\ th (fst x) (snd x) (snd x')) l l'.
  Proof. intros S A. destruct (at_thin _ _ _ A _ _ S) as (x' & A' & X). inversion X; subst. eexists. split; eassumption. Qed.
  Lemma dir_thick e e' ks l' : th [] e e' -> ent_at e' ks (EDir l') -> exists l, ent_at e ks (EDir l).
  Proof. intros S A. destruct (at_thick _ _ _ A _ _ S) as (x & A' & X). inversion X; subst. eexists. eassumption. Qed.
  Lemma json_thin e e' : th [] e e' -> forall f j, site_json h e f j -> site_json h e' f j.
  Proof.
    intros S f j (ks & name & b & t & Pt & A & X & U & Hj). destruct (thin_at _ _ _ _ _ S A) as (b' & A' & [<-|[Y _]]); [|discriminate (has_ext_unique _ _ _ X Y)].
    exists ks, name, b, t. auto.
  Qed.
  Lemma post_thin e e' : th [] e e' -> forall b v, post h ps vars e b v -> post h ps vars e' b v.
  Proof.
    intros S b v (t & fm & body & l & o & new & secs & out & l1 & l2 & U & M & W & Pr & R). exists t, fm, body, l, o, new, secs, out, l1, l2.
    split; [exact U|]. split; [exact M|]. split; [exact W|]. split; [|exact R]. eapply prints_mono; [|intros d vs X; exact X|exact Pr]. now apply json_thin.
  Qed.
  Lemma entries_thin e e' : th [] e e' -> forall l vs, entry_posts h ps vars e l vs -> forall l', Forall2 (fun x x' => fst x = fst x' /\ th (fst x) (snd x) (snd x')) l l' ->
    entry_posts h ps vars e' l' vs.
  Proof.
    intros S. induction 1 as [|name b v l vs X Po En IH|name x l vs N En IH]; intros l' F; inversion F as [|? [k' x'] ? l2 [E X'] F']; subst.
    - constructor.
    - cbn in E, X'. subst k'. apply file_thin in X'. destruct X' as (b' & -> & [<-|[Y _]]); [|discriminate (has_ext_unique _ _ _ X Y)]. apply ep_post; [exact X|eapply post_thin; eassumption|now apply IH].
    - cbn in E, X'. subst k'. apply ep_other; [|now apply IH]. intros (Y & b' & ->). apply N. split; [exact Y|]. inversion X'; subst; eauto.
  Qed.
  Lemma posts_thin e e' : th [] e e' -> forall d vs, site_posts h ps vars e d vs -> site_posts h ps vars e' d vs.
  Proof.
    intros S d vs (ks & l & Pt & A & En). destruct (dir_thin _ _ _ _ S A) as (l' & A' & F). exists ks, l'. split; [exact Pt|]. split; [exact A'|]. eapply entries_thin; eassumption.
  Qed.

  Variable e e' : ent.
  Hypothesis S : th [] e e'.
  Hypothesis Asked : forall n, asked_in h ps e n -> asked n.

  Lemma says_kept l vs secs o secs' : says h ps vars e l vs secs o secs' -> says h ps vars e' l vs secs o secs'.
  Proof. intros [new Pr]. exists new. eapply prints_mono; [exact (json_thin _ _ S)|exact (posts_thin _ _ S)|exact Pr]. Qed.
  Lemma says_fewer l l' vs o secs' : quiet l -> asks asked l -> fewer asked l l' -> says h ps vars e l vs [] o secs' -> exists o2 s2, says h ps vars e' l' vs [] o2 s2 /\ on_asked asked secs' s2.
  Proof.
    intros Q As R [new Pr]. destruct (fewer_drops (h_date h) (site_json h e) (site_posts h ps vars e) _ _ _ R) as (_ & _ & M).
    destruct (M Q As [vs] [] o new secs' ltac:(discriminate) Pr [] (fun n _ => eq_refl)) as (o2 & s2 & Pr2 & E). exists o2, s2. split; [|exact E]. apply says_kept. now exists new.
  Qed.
  Lemma layout_kept l vs secs s2 o secs' : quiet l -> asks asked l -> on_asked asked secs s2 -> says h ps vars e l vs secs o secs' -> exists s3, says h ps vars e' l vs s2 o s3.
  Proof.
    intros Q As Sa [new Pr]. destruct (carry _ _ _ _ _ _ _ _ _ Pr Q) as (ad & -> & _ & K). exists (s2 ++ ad). apply says_kept. exists new. apply K. intros n I. apply Sa, As, I.
  Qed.
  Lemma html_ext name : is_template name -> has_ext name (lit "html").
  Proof. intros [->| ->]; [exists (lit "root")|exists (lit "md")]; repeat split; try discriminate; vm_compute; intuition discriminate. Qed.
  Lemma file_asks ks name b t l : ent_at e (ks ++ [name]) (EFile b) -> has_ext name (lit "html") -> utf8_text b t -> written (h_ext h) (map (fun p => (pl_name p, pl_fns p)) ps) t l -> asks asked l.
  Proof. intros A X U W n I. apply Asked. exists ks, name, b, t, l. auto. Qed.
  Lemma template_asks name ks l : is_template name -> template_at h ps e name ks l -> quiet l /\ asks asked l.
  Proof. intros It (ks1 & ks2 & b & t & _ & A & _ & U & W). split; [now apply (written_quiet _ _ _ _ G) in W|]. exact (file_asks _ _ _ _ _ A (html_ext _ It) U W). Qed.
  Lemma template_thin name ks l : template_at h ps e name ks l -> exists l', template_at h ps e' name ks l' /\ fewer asked l l' /\ (name = lit "root.html" -> l' = l).
  Proof.
    intros (ks1 & ks2 & b & t & -> & A & N & U & W). destruct (thin_at _ _ _ _ _ S A) as (b' & A' & T).
    assert (N' : forall a c x, ks2 = a ++ c -> a <> [] -> ~ ent_at e' (ks1 ++ a ++ [name]) x).
    { intros a c x E Ne X. destruct (at_thick _ _ _ X _ _ S) as (x' & X' & _). now apply (N a c x'). }
    destruct T as [<-|(Y & Y2 & t1 & t' & l1 & l' & U1 & U' & W1 & W' & R)].
    - exists l. split; [|split; [apply fw_same|reflexivity]]. exists ks1, ks2, b, t. auto.
    - assert (t1 = t) as -> by (eapply utf8_text_fun; eassumption). assert (l1 = l) as -> by (eapply written_one; eassumption).
      exists l'. split; [|split; [exact R|contradiction]]. exists ks1, ks2, b', t'. auto.
  Qed.
  Lemma page_thin ks name b b' name' o : ent_at e (ks ++ [name]) (EFile b) -> thin_or_same name b b' -> ~ is_template name ->
    page_of_file h ps vars e ks name b name' o -> page_of_file h ps vars e' ks name b' name' o.
  Proof.
    intros At T Nt Pg. inversion Pg as [? ? t page root o1 secs ? secs' X N U W Tr S1 S2|stem ? v page root o1 secs ? secs' Ns Po Tp Tr S1 S2|? ? C]; subst.
    - destruct (template_thin _ _ _ Tr) as (root' & Tr' & _ & Er). specialize (Er eq_refl). subst root'.
      assert (Q : quiet page) by now apply (written_quiet _ _ _ _ G) in W. assert (Qa := file_asks _ _ _ _ _ At X U W). destruct (template_asks _ _ _ (or_introl eq_refl) Tr) as [Qr Ar].
      destruct T as [<-|(_ & _ & t1 & t' & l1 & l' & U1 & U' & W1 & W' & R)].
      + eapply pf_html; try eassumption; eapply says_kept; eassumption.
      + assert (t1 = t) as -> by (eapply utf8_text_fun; eassumption). assert (l1 = page) as -> by (eapply written_one; eassumption).
        destruct (says_fewer _ _ _ _ _ Q Qa R S1) as (o2 & s2 & S1' & Sa). destruct (layout_kept _ _ _ _ _ _ Qr Ar Sa S2) as (s3 & S2').
        eapply pf_html; eassumption.
    - assert (X : has_ext (stem ++ lit ".md") (lit "md")) by (exists stem; repeat split; [exact Ns|vm_compute; intuition discriminate]).
      destruct T as [<-|(Y & _)]; [|discriminate (has_ext_unique _ _ _ X Y)].
      destruct (template_thin _ _ _ Tr) as (root' & Tr' & _ & Er). specialize (Er eq_refl). subst root'. destruct (template_thin _ _ _ Tp) as (page' & Tp' & Rp & _).
      destruct (template_asks _ _ _ (or_intror eq_refl) Tp) as [Q Qa]. destruct (template_asks _ _ _ (or_introl eq_refl) Tr) as [Qr Ar].
      destruct (says_fewer _ _ _ _ _ Q Qa Rp S1) as (o2 & s2 & S1' & Sa). destruct (layout_kept _ _ _ _ _ _ Qr Ar Sa S2) as (s3 & S2').
      eapply pf_md; try eassumption. eapply post_thin; eassumption.
    - destruct T as [<-|(Y & _)]; [now apply pf_copy|]. destruct C as [C|[C|(C & _)]]; [contradiction|discriminate (has_ext_unique _ _ _ C Y)|contradiction].
  Qed.
  Lemma order_thin : site_in_order h ps vars e -> site_in_order h ps vars e'.
  Proof.
    intros ([l E] & No & F). split; [|split].
    - destruct (dir_thin e e' [] l S) as (l' & A & _); [rewrite E; constructor|]. inversion A; subst. now exists l'.
    - intros ks A. destruct (at_thick _ _ _ A _ _ S) as (x & A' & X). inversion X; subst. now apply No in A'.
    - intros ks name b' A'. destruct (thick_at _ _ _ _ _ S A') as (b & A & T). destruct (F _ _ _ A) as ((name' & o & Pg) & Tm & Js).
      split; [|split].
      + destruct (template_or name) as [D|D]; [exists name, b'; now apply pf_copy; left|]. exists name', o. eapply page_thin; eassumption.
      + intros It. destruct T as [<-|(_ & _ & t & t' & l1 & l2 & _ & U' & _ & W' & _)]; [now apply Tm|eauto].
      + intros X. destruct T as [<-|(Y & _)]; [now apply Js|discriminate (has_ext_unique _ _ _ X Y)].
  Qed.
  Hypothesis D' : ent_distinct e'.
  Hypothesis O : site_in_order h ps vars e.
  Lemma published_thin ks name o : ~ is_template name -> published h ps vars e ks name o <-> published h ps vars e' ks name o.
  Proof.
    intros Nt. split; intros (src & b & A & Pg); assert (Ns : ~ is_template src) by (inversion Pg; subst; auto; intros [X|X]; apply (f_equal (@rev _)) in X; rewrite rev_app_distr in X; discriminate X).
    - destruct (thin_at _ _ _ _ _ S A) as (b' & A' & T). exists src, b'. split; [exact A'|]. eapply page_thin; eassumption.
    - destruct (thick_at _ _ _ _ _ S A) as (b0 & A0 & T). destruct O as (_ & _ & F). destruct (F _ _ _ A0) as ((name' & o' & Pg') & _ & _).
      destruct (page_one h ps vars e' D' _ _ _ _ _ _ _ Pg (page_thin _ _ _ _ _ _ A0 T Ns Pg') Ns) as [-> ->]. exists src, b0. now split.
  Qed.
  Lemma published_thick ks name o : published h ps vars e' ks name o -> exists o', published h ps vars e ks name o'.
  Proof.
    intros (src & b & A & Pg). destruct (thick_at _ _ _ _ _ S A) as (b0 & A0 & T). destruct (template_or src) as [Is|Ns].
    - assert (name = src) as -> by (inversion Pg; subst; try contradiction; auto; destruct Is as [X|X]; apply (f_equal (@rev _)) in X; rewrite rev_app_distr in X; discriminate X).
      exists b0, src, b0. split; [exact A0|]. apply pf_copy. now left.
    - destruct O as (_ & _ & F). destruct (F _ _ _ A0) as ((name' & o' & Pg') & _ & _). destruct (page_one h ps vars e' D' _ _ _ _ _ _ _ Pg (page_thin _ _ _ _ _ _ A0 T Ns Pg') Ns) as [-> _].
      exists o', src, b0. now split.
  Qed.
  Variable cf : config.
  Variable statics : ent.
  Lemma files_thin q o : SpecSite.file_at h ps vars e cf statics q o <-> SpecSite.file_at h ps vars e' cf statics q o.
  Proof.
    unfold SpecSite.file_at. assert (X : page_at h ps vars e cf q o <-> page_at h ps vars e' cf q o); [|tauto].
    split; intros (ks & name & Pu & Hi & Sa); exists ks, name; (split; [|now split]); (apply published_thin || apply published_thin in Pu); auto; intros T; apply Hi; now left.
  Qed.
  Lemma folders_thick q : folder_at h ps vars e' cf statics q -> folder_at h ps vars e cf statics q.
  Proof.
    intros [[[l A]|(ks & name & o & stem & Pu & Hi & St & E)]|X].
    - destruct (dir_thick _ _ _ _ S A) as (l' & A'). left. left. now exists l'.
    - left. right. exists ks, name, o, stem. split; [|auto]. apply published_thin; [|exact Pu]. intros T. apply Hi. now left.
    - now right.
  Qed.
  Lemma folders_thin q : folder_at h ps vars e cf statics q -> folder_at h ps vars e' cf statics q.
  Proof.
    intros [[[l A]|(ks & name & o & stem & Pu & Hi & St & E)]|X].
    - destruct (dir_thin _ _ _ _ S A) as (l' & A' & _). left. left. now exists l'.
    - left. right. exists ks, name, o, stem. split; [|auto]. apply published_thin; [|exact Pu]. intros T. apply Hi. now left.
    - now right.
  Qed.
  Lemma published_still ks name o : published h ps vars e ks name o -> exists o', published h ps vars e' ks name o'.
  Proof.
    intros (src & b & A & Pg). destruct (thin_at _ _ _ _ _ S A) as (b' & A' & T). destruct (template_or src) as [Is|Ns].
    - assert (name = src) as -> by (inversion Pg; subst; try contradiction; auto; destruct Is as [X|X]; apply (f_equal (@rev _)) in X; rewrite rev_app_distr in X; discriminate X).
      exists b', src, b'. split; [exact A'|]. apply pf_copy. now left.
    - exists o, src, b'. split; [exact A'|]. eapply page_thin; eassumption.
  Qed.
  (** The names of the two sites clash with those of the static directory in the same cases. *)
  Lemma conflict_thin : no_conflict h ps vars e statics <-> no_conflict h ps vars e' statics.
  Proof.
    split; intros [C1 C2]; split.
    - intros ks name x o A Pu. destruct (published_thick _ _ _ Pu) as [o' Pu']. exact (C1 _ _ _ _ A Pu').
    - intros ks b l A A'. destruct (dir_thick _ _ _ _ S A') as (l' & X). exact (C2 _ _ _ A X).
    - intros ks name x o A Pu. destruct (published_still _ _ _ Pu) as [o' Pu']. exact (C1 _ _ _ _ A Pu').
    - intros ks b l A A'. destruct (dir_thin _ _ _ _ S A') as (l' & X & _). exact (C2 _ _ _ A X).
  Qed.
  Lemma overlap_thin : no_overlap h ps vars e cf statics <-> no_overlap h ps vars e' cf statics.
  Proof.
    split; intros [C1 C2]; split.
    - intros q o o' A A'. apply files_thin in A, A'. exact (C1 _ _ _ A A').
    - intros q o A Fo. apply files_thin in A. apply folders_thick in Fo. exact (C2 _ _ A Fo).
    - intros q o o' A A'. apply files_thin in A, A'. exact (C1 _ _ _ A A').
    - intros q o A Fo. apply files_thin in A. apply folders_thin in Fo. exact (C2 _ _ A Fo).
  Qed.
End Transfer.

Lemma builds_thin h osenv mode d d' st content content' : sd_ent d = Some content -> sd_ent d' = Some content' -> plugins_give unmoved (st_plugins st) ->
  plain_site h (st_plugins st) osenv mode content -> ent_distinct content' ->
  thinned h (st_plugins st) (asked_in h (st_plugins st) content) [] content content' ->
  snd (build h osenv mode d st) = Ok tt -> snd (build h osenv mode d' st) = Ok tt.
Proof.
  intros E E' G Pl D' S B. apply (build_exactly _ _ _ _ _ _ E Pl) in B. apply (site_builds _ _ _ _ _ _ E' D'). now apply (order_thin _ _ G _ _ _ _ S (fun n X => X)).
Qed.
Lemma pages_thin h osenv mode d d' st content content' out out' : sd_ent d = Some content -> sd_ent d' = Some content' -> plugins_give unmoved (st_plugins st) ->
  ent_distinct content -> ent_distinct content' -> site_in_order h (st_plugins st) (page_vars osenv mode) content ->
  thinned h (st_plugins st) (asked_in h (st_plugins st) content) [] content content' ->
  snd (build h osenv mode d st) = Ok tt /\ snd (build h osenv mode d' st) = Ok tt /\
  (st_output (fst (build h osenv mode d st)) = Some out -> st_output (fst (build h osenv mode d' st)) = Some out' ->
   forall ks name o, ~ is_template name ->
     ((exists pc m src, at_names out (ks ++ [name]) (NFile name o pc m src)) <-> (exists pc m src, at_names out' (ks ++ [name]) (NFile name o pc m src)))).
Proof.
  intros E E' G D D' O S. assert (O' := order_thin _ _ G _ _ _ _ S (fun n X => X) O).
  assert (B := site_builds _ _ _ _ _ _ E D O). assert (B' := site_builds _ _ _ _ _ _ E' D' O').
  split; [exact B|]. split; [exact B'|]. intros Eo Eo' ks name o N.
  rewrite (site_files _ _ _ _ _ _ _ B Eo E D O), (site_files _ _ _ _ _ _ _ B' Eo' E' D' O'). now apply (published_thin _ _ G _ _ _ _ S (fun n X => X)).
Qed.
Lemma project_thin m c d d' content content' statics : cx_pre c = [] -> cx_post c = [] -> cf_meta (st_config (cx_stuart c)) = false ->
  plugins_give unmoved (st_plugins (cx_stuart c)) ->
  project_ready c d content statics -> project_ready c d' content' statics ->
  no_conflict (m_host m) (st_plugins (cx_stuart c)) (page_vars (m_osenv m) (cx_mode c)) content statics ->
  no_overlap (m_host m) (st_plugins (cx_stuart c)) (page_vars (m_osenv m) (cx_mode c)) content (st_config (cx_stuart c)) statics ->
  site_in_order (m_host m) (st_plugins (cx_stuart c)) (page_vars (m_osenv m) (cx_mode c)) content ->
  thinned (m_host m) (st_plugins (cx_stuart c)) (asked_in (m_host m) (st_plugins (cx_stuart c)) content) [] content content' ->
  exists c1 d1 c2 d2, cli_build m no_faults c d = (c1, d1, COk) /\ cli_build m no_faults c d' = (c2, d2, COk) /\
    forall q o, what (output_dir c ++ q) d1 = KFile o <-> what (output_dir c ++ q) d2 = KFile o.
Proof.
  intros Pre Post Me G (L1 & St1 & T1 & D1 & I1 & So & O1 & Pa1 & Wo1) (L2 & St2 & T2 & D2 & I2 & _ & _ & Pa2 & Wo2) [C1 C2] [Ov1 Ov2] Or S.
  assert (DC : ent_distinct content') by (eapply SiteDisk.lookup_distinct; eassumption).
  pose (K := fun n (X : asked_in (m_host m) (st_plugins (cx_stuart c)) content n) => X).
  destruct (project_built m c d content statics) as (c1 & d1 & B1 & F1); auto; [split; assumption|split; assumption|].
  destruct (project_built m c d' content' statics) as (c2 & d2 & B2 & F2); auto.
  - now apply (order_thin _ _ G _ _ _ _ S K).
  - apply (conflict_thin _ _ G _ _ _ _ S K DC Or). now split.
  - apply (overlap_thin _ _ G _ _ _ _ S K DC Or). now split.
  - exists c1, d1, c2, d2. split; [exact B1|]. split; [exact B2|]. intros q o. rewrite F1, F2. apply (files_thin _ _ G _ _ _ _ S K DC Or).
Qed.
