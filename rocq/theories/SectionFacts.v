(** SectionFacts.v -- the order of the sections of a page, and the text around them (C101). *)

From Coq Require Import String List NArith ZArith Bool Lia ZifyBool ZifyNat ZifyN.
From Verif Require Import Text TextFacts Utf8 Json Base Syntax Parse Tree Interp Build Disk Cli.
From Verif Require Import SpecScope SpecPage SpecRender SpecTemplate SpecLoop SpecBlocks SpecMarkdown SpecTree SpecUtf8 SpecDisk SpecProject SpecSite SpecExact SpecSwap SpecSections.
From Verif Require Js JsFacts Shipped.
From Verif Require Import Utf8Facts ScopeFacts InterpFacts RenderFacts SelectFacts BlockFacts TextFnFacts LoopFacts MarkdownFacts
  TreeFacts PathFacts CliFacts GrammarFacts BuildTotal SiteFacts ExactFacts SwapFacts LocalFacts NeedsFacts ReadsFacts SiteDisk SwapLaws.
Import ListNotations.

(** ** Sections looked up in two lists *)
Definition same_at (n : text) (s s' : sections) : Prop := assoc n s = assoc n s'.
Definition all_same (s s' : sections) : Prop := forall n, same_at n s s'.
Lemma assoc_both {A} n (a b : list (text * A)) : assoc n (a ++ b) = match assoc n a with Some x => Some x | None => assoc n b end.
Proof. induction a as [|[k v] a IH]; cbn [app assoc]; [reflexivity|]. destruct (text_eqb k n); auto. Qed.
Lemma assoc_out {A} n (a : list (text * A)) : ~ In n (map fst a) -> assoc n a = None.
Proof. intros N. rewrite <- (app_nil_r a). rewrite (assoc_app_none n a []) by exact N. reflexivity. Qed.
Lemma same_app n s s' x : same_at n s s' -> same_at n (s ++ x) (s' ++ x).
Proof. unfold same_at. intros E. now rewrite !assoc_both, E. Qed.
Lemma same_more n s x : ~ In n (map fst x) -> same_at n s (s ++ x).
Proof. unfold same_at. intros N. rewrite assoc_both, (assoc_out n x) by exact N. now destruct (assoc n s). Qed.
Lemma all_swap s x y : (forall n, In n (map fst x) -> ~ In n (map fst y)) -> all_same ((s ++ x) ++ y) ((s ++ y) ++ x).
Proof.
  intros D n. unfold same_at. rewrite !assoc_both. destruct (assoc n s) as [b|]; [reflexivity|].
  destruct (in_dec (list_eq_dec N.eq_dec) n (map fst x)) as [I|N].
  - rewrite (assoc_out n y) by now apply D. now destruct (assoc n x).
  - rewrite (assoc_out n x) by exact N. now destruct (assoc n y).
Qed.

(** ** The plugin functions called *)
Fixpoint calls (b : block) : list plugin_fn :=
  match b with
  | BPlugin p => [p]
  | BSection _ body | BFor _ body | BIf _ body => flat_map calls body
  | BIfElse _ yes no => flat_map calls yes ++ flat_map calls no
  | _ => []
  end.
Definition quiet (l : list block) : Prop := Forall unmoved (flat_map calls l).
Lemma quiet_cons b l : quiet (b :: l) <-> Forall unmoved (calls b) /\ quiet l.
Proof. unfold quiet. cbn [flat_map]. now rewrite Forall_app. Qed.
Lemma quiet_app a b : quiet (a ++ b) <-> quiet a /\ quiet b.
Proof. unfold quiet. rewrite flat_map_app. now rewrite Forall_app. Qed.

Section Print.
  Variable date : option (text -> text -> option text).
  Variable J : text -> value -> Prop.
  Variable P : text -> list value -> Prop.
  Local Notation prints := (prints date J P).
  Local Notation repeats := (repeats date J P).

  Definition carried (run : sections -> sections -> Prop) (ins recs : list text) (secs secs' : sections) : Prop :=
    exists added, secs' = secs ++ added /\ incl (map fst added) recs /\
      forall s2, (forall n, In n ins -> same_at n secs s2) -> run s2 (s2 ++ added).
  Lemma shows_carry vs r secs s2 b o new : Forall unmoved (calls b) -> (forall n, In n (inserted b) -> same_at n secs s2) ->
    shows date J (vs :: r) secs b o new -> shows date J (vs :: r) s2 b o new.
  Proof.
    intros Q S H. inversion H; subst; try (econstructor; eauto; fail).
    - constructor. apply assoc_iff. rewrite <- (S label) by now left. now apply assoc_iff.
    - cbn [calls] in Q. inversion Q as [|? ? U _]; subst. apply (sh_plugin _ _ _ _ _ beh); [assumption|]. intros l. rewrite (U beh l (vs :: r) secs s2); auto. discriminate.
  Qed.
  Lemma shows_flat vs r secs b o new : shows date J (vs :: r) secs b o new -> sections_of b = [].
  Proof. now inversion 1. Qed.

  Lemma carry l sc secs o new secs' : prints l sc secs o new secs' -> quiet l ->
    carried (fun s s' => prints l sc s o new s') (flat_map inserted l) (flat_map sections_of l) secs secs'.
  Proof.
    intros H. induction H using prints_mut with
      (P0 := fun body x vs sc secs o secs' => quiet body -> carried (fun s s' => repeats body x vs sc s o s') (flat_map inserted body) (flat_map sections_of body) secs secs'); intros Q.
    - exists []. split; [now rewrite app_nil_r|]. split; [intros n []|]. intros s2 _. rewrite app_nil_r. constructor.
    - apply quiet_cons in Q. destruct Q as [Q1 Q2]. destruct (IHprints Q2) as (ad & -> & I & K). exists ad. split; [reflexivity|]. cbn [flat_map]. split; [now apply incl_appr|].
      intros s2 S. eapply pr_simple; [eapply shows_carry; [exact Q1| |eassumption]|apply K]; intros n In_; apply S, in_or_app; auto.
    - apply quiet_cons in Q. destruct Q as [Q1 Q2]. destruct (IHprints1 Q1) as (a1 & -> & I1 & K1). destruct (IHprints2 Q2) as (a2 & -> & I2 & K2).
      exists (a1 ++ [(label, o)] ++ a2). split; [now rewrite <- !app_assoc|]. split.
      { rewrite !map_app. intros n In_. cbn [flat_map sections_of]. rewrite !in_app_iff in In_. rewrite in_app_iff. destruct In_ as [X|[[<-|[]]|X]]; [left; right; now apply I1|left; now left|right; now apply I2]. }
      intros s2 S. replace (s2 ++ a1 ++ [(label, o)] ++ a2) with (((s2 ++ a1) ++ [(label, o)]) ++ a2) by now rewrite <- !app_assoc. eapply pr_section; [apply K1; intros n In_; apply S, in_or_app; now left|].
      apply K2. intros n In_. apply same_app, same_app, S, in_or_app. now right.
    - apply quiet_cons in Q. destruct Q as [Q1 Q2]. destruct (IHprints Q1) as (a1 & -> & I1 & K1). destruct (IHprints0 Q2) as (a2 & -> & I2 & K2).
      exists (a1 ++ a2). split; [now rewrite <- !app_assoc|]. split.
      { rewrite map_app. intros n In_. cbn [flat_map sections_of]. rewrite in_app_iff in *. destruct In_ as [X|X]; [left; now apply I1|right; now apply I2]. }
      intros s2 S. rewrite app_assoc. eapply pr_for; try eassumption; [apply K1; intros n In_; apply S, in_or_app; now left|].
      apply K2. intros n In_. apply same_app, S, in_or_app. now right.
    - apply quiet_cons in Q. destruct Q as [Q1 Q2]. destruct (IHprints1 Q1) as (a1 & -> & I1 & K1). destruct (IHprints2 Q2) as (a2 & -> & I2 & K2).
      exists (a1 ++ a2). split; [now rewrite <- !app_assoc|]. split.
      { rewrite map_app. intros n In_. cbn [flat_map sections_of]. rewrite in_app_iff in *. destruct In_ as [X|X]; [left; now apply I1|right; now apply I2]. }
      intros s2 S. rewrite app_assoc. eapply pr_if; try eassumption; [apply K1; intros n In_; apply S, in_or_app; now left|].
      apply K2. intros n In_. apply same_app, S, in_or_app. now right.
    - apply quiet_cons in Q. destruct Q as [_ Q2]. destruct (IHprints Q2) as (a2 & -> & I2 & K2). exists a2. split; [reflexivity|]. split; [cbn [flat_map]; now apply incl_appr|].
      intros s2 S. apply pr_skip; try assumption. apply K2. intros n In_. apply S, in_or_app. now right.
    - apply quiet_cons in Q. destruct Q as [Q1 Q2]. cbn [calls] in Q1. apply Forall_app in Q1. destruct Q1 as [Q1 _].
      destruct (IHprints1 Q1) as (a1 & -> & I1 & K1). destruct (IHprints2 Q2) as (a2 & -> & I2 & K2).
      exists (a1 ++ a2). split; [now rewrite <- !app_assoc|]. split.
      { rewrite map_app. intros n In_. cbn [flat_map sections_of]. rewrite !in_app_iff in *. destruct In_ as [X|X]; [left; left; now apply I1|right; now apply I2]. }
      intros s2 S. rewrite app_assoc. eapply pr_then; try eassumption; [apply K1; intros n In_; apply S; cbn [flat_map inserted]; rewrite !in_app_iff; auto|].
      apply K2. intros n In_. apply same_app, S, in_or_app. now right.
    - apply quiet_cons in Q. destruct Q as [Q1 Q2]. cbn [calls] in Q1. apply Forall_app in Q1. destruct Q1 as [_ Q1].
      destruct (IHprints1 Q1) as (a1 & -> & I1 & K1). destruct (IHprints2 Q2) as (a2 & -> & I2 & K2).
      exists (a1 ++ a2). split; [now rewrite <- !app_assoc|]. split.
      { rewrite map_app. intros n In_. cbn [flat_map sections_of]. rewrite !in_app_iff in *. destruct In_ as [X|X]; [left; right; now apply I1|right; now apply I2]. }
      intros s2 S. rewrite app_assoc. eapply pr_else; try eassumption; [apply K1; intros n In_; apply S; cbn [flat_map inserted]; rewrite !in_app_iff; auto|].
      apply K2. intros n In_. apply same_app, S, in_or_app. now right.
    - exists []. split; [now rewrite app_nil_r|]. split; [intros n []|]. intros s2 _. rewrite app_nil_r. constructor.
    - destruct (IHprints Q) as (a1 & -> & I1 & K1). destruct (IHprints0 Q) as (a2 & -> & I2 & K2).
      exists (a1 ++ a2). split; [now rewrite <- !app_assoc|]. split.
      { rewrite map_app. intros n In_. rewrite in_app_iff in *. destruct In_ as [X|X]; [now apply I1|now apply I2]. }
      intros s2 S. rewrite app_assoc. econstructor; [apply K1; exact S|]. apply K2. intros n In_. now apply same_app, S.
  Qed.

  (** ** Another order *)
  Definition moves (l l' : list block) : Prop :=
    forall sc secs o new secs', sc <> [] -> prints l sc secs o new secs' -> forall s2, all_same secs s2 ->
      exists o2 s2', prints l' sc s2 o2 new s2' /\ all_same secs' s2'.
  Lemma moves_refl l : quiet l -> moves l l.
  Proof.
    intros Q sc secs o new secs' _ H s2 S. destruct (carry _ _ _ _ _ _ H Q) as (ad & -> & _ & K). exists o, (s2 ++ ad). split; [apply K; intros n _; apply S|].
    intros n. apply same_app, S.
  Qed.
  Lemma moves_trans a b c : moves a b -> moves b c -> moves a c.
  Proof.
    intros A B sc secs o new secs' N H s2 S. destruct (A _ _ _ _ _ N H s2 S) as (o1 & s1 & H1 & S1). destruct (B _ _ _ _ _ N H1 s2) as (o2 & s3 & H2 & S2); [intros n; reflexivity|].
    exists o2, s3. split; [exact H2|]. intros n. unfold same_at. rewrite (S1 n). apply S2.
  Qed.
  Lemma bind_some new sc : sc <> [] -> bind_vars new sc <> [].
  Proof. destruct sc; [contradiction|discriminate]. Qed.
  Lemma moves_app a a' b b' : moves a a' -> moves b b' -> moves (a ++ b) (a' ++ b').
  Proof.
    intros A B sc secs o new secs' N H s2 S. apply app_cut in H. destruct H as (o1 & n1 & s1 & o2 & n2 & Ha & Hb & -> & ->).
    destruct (A _ _ _ _ _ N Ha s2 S) as (o1' & s1' & Ha' & S1). destruct (B _ _ _ _ _ (bind_some n1 sc N) Hb s1' S1) as (o2' & s3 & Hb' & S3).
    exists (o1' ++ o2'), s3. split; [eapply app_join; eassumption|exact S3].
  Qed.
  Lemma moves_less t : moves [BText t] [].
  Proof.
    intros sc secs o new secs' N H s2 S. inversion H; subst. match goal with K : shows _ _ _ _ _ _ _ |- _ => inversion K; subst end.
    match goal with K : SpecSite.prints _ _ _ [] _ _ _ _ _ |- _ => inversion K; subst end. exists [], s2. split; [constructor|exact S].
  Qed.
  Lemma moves_more t o : utf8_text o t -> moves [] [BText t].
  Proof.
    intros U sc secs o1 new secs' N H s2 S. inversion H; subst. destruct sc as [|vs r]; [contradiction|]. exists (o ++ []), s2. split; [|exact S].
    change (@nil (text * value)) with (@nil (text * value) ++ []). eapply pr_simple; [now constructor|constructor].
  Qed.
  Lemma moves_swap a body b body' : quiet body -> quiet body' -> unrelated (BSection a body) (BSection b body') ->
    moves [BSection a body; BSection b body'] [BSection b body'; BSection a body].
  Proof.
    intros Q Q' Un sc secs o new secs' N H s2 S.
    inversion H as [|? ? ? ? ? ? ? ? ? ? Sh| ? ? ? ? ? oa na sa ob nb sb Ha Hb| | | | |]; subst; [inversion Sh|].
    inversion Hb as [|? ? ? ? ? ? ? ? ? ? Sh| ? ? ? ? ? oc nc sc' od nd sd Hc Hd| | | | |]; subst; [inversion Sh|]. inversion Hd; subst. clear H Hb Hd.
    destruct (carry _ _ _ _ _ _ Ha Q) as (aa & -> & Ia & Ka). destruct (carry _ _ _ _ _ _ Hc Q') as (ab & -> & Ib & Kb).
    assert (Xa : incl (map fst (aa ++ [(a, oa)])) (sections_of (BSection a body))).
    { rewrite map_app. intros n I. apply in_app_iff in I. destruct I as [I|[<-|[]]]; [right; now apply Ia|now left]. }
    assert (Xb : incl (map fst (ab ++ [(b, oc)])) (sections_of (BSection b body'))).
    { rewrite map_app. intros n I. apply in_app_iff in I. destruct I as [I|[<-|[]]]; [right; now apply Ib|now left]. }
    exists (oc ++ oa ++ []), (((s2 ++ ab ++ [(b, oc)]) ++ aa) ++ [(a, oa)]). split.
    - rewrite (app_assoc s2 ab). eapply pr_section; [apply Kb|eapply pr_section; [apply Ka|constructor]].
      + intros n I. unfold same_at. rewrite <- (S n). symmetry. rewrite <- app_assoc. apply same_more. intros X. destruct (Un n) as [K _]. now destruct (K (Xa _ X)) as [_ K'].
      + intros n I. unfold same_at. rewrite (S n). rewrite <- app_assoc. apply same_more. intros X. destruct (Un n) as [_ K]. now apply (K (Xb _ X)).
    - intros n. assert (E : all_same (((secs ++ aa ++ [(a, oa)])) ++ ab ++ [(b, oc)]) ((secs ++ ab ++ [(b, oc)]) ++ aa ++ [(a, oa)])).
      { apply all_swap. intros k I I'. destruct (Un k) as [K _]. now destruct (K (Xa _ I)) as [K' _]; apply K', Xb. }
      specialize (E n). unfold same_at in *. rewrite <- !app_assoc in *. rewrite E. rewrite !(assoc_both n secs), !(assoc_both n s2). now rewrite (S n).
  Qed.
  Lemma cons_some (v : list (text * value)) (sc : scopes) : v :: sc <> [].
  Proof. discriminate. Qed.
  Lemma moves_repeats body body' : moves body body' -> forall x vs sc secs o secs', repeats body x vs sc secs o secs' -> forall s2, all_same secs s2 ->
    exists o2 s2', repeats body' x vs sc s2 o2 s2' /\ all_same secs' s2'.
  Proof.
    intros M x vs. induction vs as [|v vs IH]; intros sc secs o secs' H s2 S; inversion H as [|? ? ? ? ? ? oa na sa ob sb Ha Hb]; subst.
    - exists [], s2. split; [constructor|exact S].
    - destruct (M _ _ _ _ _ (cons_some _ _) Ha s2 S) as (o1 & s1 & H1 & S1). destruct (IH _ _ _ _ Hb s1 S1) as (o2 & s3 & H2 & S2).
      exists (o1 ++ o2), s3. split; [econstructor; eassumption|exact S2].
  Qed.
  Lemma moves_for f body body' : moves body body' -> moves [BFor f body] [BFor f body'].
  Proof.
    intros M sc secs o new secs' N H s2 S. inversion H; subst; [match goal with K : shows _ _ _ _ _ _ _ |- _ => inversion K end|].
    match goal with K : SpecSite.prints _ _ _ [] _ _ _ _ _ |- _ => inversion K; subst end.
    match goal with K : SpecSite.repeats _ _ _ _ _ _ _ _ _ _ |- _ => destruct (moves_repeats _ _ M _ _ _ _ _ _ K s2 S) as (o2 & s3 & H2 & S2) end.
    exists (o2 ++ []), s3. split; [eapply pr_for; try eassumption; constructor|exact S2].
  Qed.
  Lemma moves_if c yes yes' : (Forall simple yes -> Forall simple yes') -> (Forall named_calls yes -> Forall named_calls yes') -> moves yes yes' -> moves [BIf c yes] [BIf c yes'].
  Proof.
    intros Si Na M sc secs o new secs' N H s2 S. inversion H; subst; [match goal with K : shows _ _ _ _ _ _ _ |- _ => inversion K end| |];
      match goal with K : SpecSite.prints _ _ _ [] _ _ _ _ _ |- _ => inversion K; subst end.
    - match goal with K : SpecSite.prints _ _ _ yes _ _ _ _ _ |- _ => destruct (M _ _ _ _ _ (cons_some _ _) K s2 S) as (o1 & s1 & H1 & S1) end.
      exists (o1 ++ []), s1. split; [eapply pr_if; eauto; constructor|exact S1].
    - exists [], s2. split; [apply pr_skip; auto; constructor|exact S].
  Qed.
  Lemma moves_ifelse c yes yes' no no' : (Forall simple yes -> Forall simple yes') -> (Forall named_calls yes -> Forall named_calls yes') -> moves yes yes' ->
    (Forall simple no -> Forall simple no') -> (Forall named_calls no -> Forall named_calls no') -> moves no no' -> moves [BIfElse c yes no] [BIfElse c yes' no'].
  Proof.
    intros Si Na M Si' Na' M' sc secs o new secs' N H s2 S. inversion H; subst; [match goal with K : shows _ _ _ _ _ _ _ |- _ => inversion K end| |];
      match goal with K : SpecSite.prints _ _ _ [] _ _ _ _ _ |- _ => inversion K; subst end.
    - match goal with K : SpecSite.prints _ _ _ yes _ _ _ _ _ |- _ => destruct (M _ _ _ _ _ (cons_some _ _) K s2 S) as (o1 & s1 & H1 & S1) end.
      exists (o1 ++ []), s1. split; [eapply pr_then; eauto; constructor|exact S1].
    - match goal with K : SpecSite.prints _ _ _ no _ _ _ _ _ |- _ => destruct (M' _ _ _ _ _ (cons_some _ _) K s2 S) as (o1 & s1 & H1 & S1) end.
      exists (o1 ++ []), s1. split; [eapply pr_else; eauto; constructor|exact S1].
  Qed.
  Lemma quiet_by a b : (forall p, In p (flat_map calls a) <-> In p (flat_map calls b)) -> quiet a -> quiet b.
  Proof. unfold quiet. rewrite !Forall_forall. intros I Q p X. apply Q. now apply I. Qed.
  Lemma reordered_moves l l' : reordered l l' ->
    (Forall simple l <-> Forall simple l') /\ (Forall named_calls l <-> Forall named_calls l') /\
    (forall p, In p (flat_map calls l) <-> In p (flat_map calls l')) /\ (quiet l -> moves l l' /\ moves l' l).
  Proof.
    induction 1 as [l|t o U|a A b B Un|a a' b b' _ (S1 & N1 & C1 & M1) _ (S2 & N2 & C2 & M2)|f body body' _ (S1 & N1 & C1 & M1)|c yes yes' _ (S1 & N1 & C1 & M1)
      |c yes yes' no no' _ (S1 & N1 & C1 & M1) _ (S2 & N2 & C2 & M2)|a b _ (S1 & N1 & C1 & M1)|a b c _ (S1 & N1 & C1 & M1) _ (S2 & N2 & C2 & M2)].
    - split; [reflexivity|]. split; [reflexivity|]. split; [reflexivity|]. intros Q. split; now apply moves_refl.
    - split; [split; intros; repeat constructor|]. split; [split; intros; repeat constructor|]. split; [reflexivity|]. intros _. split; [apply moves_less|now apply (moves_more _ o)].
    - split; [split; intros F; inversion F; contradiction|]. split; [split; intros F; inversion F as [|? ? X Y]; inversion Y; subst; repeat constructor; assumption|].
      split; [intros p; cbn [flat_map]; rewrite !in_app_iff; tauto|]. intros Q. apply quiet_cons in Q. destruct Q as [Qa Q]. apply quiet_cons in Q. destruct Q as [Qb _].
      split; apply moves_swap; auto. intros n. specialize (Un n). tauto.
    - split; [rewrite !Forall_app; tauto|]. split; [rewrite !Forall_app; tauto|]. split; [intros p; rewrite !flat_map_app, !in_app_iff, C1, C2; reflexivity|].
      intros Q. apply quiet_app in Q. destruct Q as [Qa Qb]. destruct (M1 Qa), (M2 Qb). split; now apply moves_app.
    - split; [split; intros F; inversion F; contradiction|]. split; [split; intros _; repeat constructor|]. split; [intros p; cbn [flat_map calls]; rewrite !app_nil_r; apply C1|].
      intros Q. apply quiet_cons in Q. destruct (M1 (proj1 Q)). split; now apply moves_for.
    - split; [split; intros F; inversion F; contradiction|]. split; [split; intros _; repeat constructor|]. split; [intros p; cbn [flat_map calls]; rewrite !app_nil_r; apply C1|].
      intros Q. apply quiet_cons in Q. destruct (M1 (proj1 Q)). split; apply moves_if; tauto.
    - split; [split; intros F; inversion F; contradiction|]. split; [split; intros _; repeat constructor|]. split; [intros p; cbn [flat_map calls]; rewrite !app_nil_r, !in_app_iff, C1, C2; reflexivity|].
      intros Q. apply quiet_cons in Q. destruct Q as [Q _]. cbn [calls] in Q. apply Forall_app in Q. destruct Q as [Qa Qb]. destruct (M1 Qa), (M2 Qb). split; apply moves_ifelse; tauto.
    - split; [now symmetry|]. split; [now symmetry|]. split; [intros p; symmetry; apply C1|]. intros Q. apply and_comm, M1. revert Q. apply quiet_by. intros p. symmetry. apply C1.
    - split; [tauto|]. split; [tauto|]. split; [intros p; rewrite C1; apply C2|]. intros Q. destruct (M1 Q) as [X Y]. destruct (M2 (quiet_by _ _ C1 Q)) as [X' Y'].
      split; eapply moves_trans; eassumption.
  Qed.
End Print.

(** ** Sites *)
Lemma calls_tags b p : In p (calls b) -> In (TFun (FPlugin p)) (tags b).
Proof.
  revert p. induction b as [b S|p0|label body IH|f body IH|c yes IH|c yes no IH1 IH2] using block_ind2; intros p I.
  - destruct b; try destruct S; destruct I.
  - destruct I as [<-|[]]. now left.
  - cbn [calls tags] in *. right. apply in_or_app. left. apply in_flat_map in I. destruct I as (b & Ib & Ip). apply in_flat_map. exists b. split; [exact Ib|]. rewrite Forall_forall in IH. now apply IH.
  - cbn [calls tags] in *. right. apply in_or_app. left. apply in_flat_map in I. destruct I as (b & Ib & Ip). apply in_flat_map. exists b. split; [exact Ib|]. rewrite Forall_forall in IH. now apply IH.
  - cbn [calls tags] in *. right. apply in_or_app. left. apply in_flat_map in I. destruct I as (b & Ib & Ip). apply in_flat_map. exists b. split; [exact Ib|]. rewrite Forall_forall in IH. now apply IH.
  - cbn [calls tags] in *. right. apply in_app_iff in I. destruct I as [I|I]; apply in_flat_map in I; destruct I as (b & Ib & Ip).
    + apply in_or_app. left. apply in_flat_map. exists b. split; [exact Ib|]. rewrite Forall_forall in IH1. now apply IH1.
    + apply in_or_app. right. right. apply in_or_app. left. apply in_flat_map. exists b. split; [exact Ib|]. rewrite Forall_forall in IH2. now apply IH2.
Qed.
Lemma written_quiet ext ps t l : plugins_give unmoved ps -> written ext (map (fun p => (pl_name p, pl_fns p)) ps) t l -> quiet l.
Proof.
  intros G W. apply (parse_means _ _ []) in W. destruct W as (toks & E & M). assert (K := parse_plugins unmoved ext ps [] t toks G E).
  apply Forall_forall. intros p I. apply in_flat_map in I. destruct I as (b & Ib & Ip). assert (X : In (TFun (FPlugin p)) (flat_map tags l)) by (apply in_flat_map; exists b; split; [exact Ib|now apply calls_tags]).
  rewrite <- M in X. apply in_map_iff in X. destruct X as ([tk lc] & E1 & I1). cbn in E1. subst tk. now apply (K p lc).
Qed.

Lemma reordered_text_sym h ps b b' : reordered_text h ps b b' -> reordered_text h ps b' b.
Proof. intros (t & t' & l & l' & U & U' & W & W' & R). exists t', t, l', l. split; [exact U'|]. split; [exact U|]. split; [exact W'|]. split; [exact W|]. now apply ro_sym. Qed.
Lemma rearranged_sym h ps e : forall name e', rearranged h ps name e e' -> rearranged h ps name e' e.
Proof.
  induction e as [b| |l IH] using ent_ind2; intros name e' H; inversion H as [| |? b1 b2 X X2 R|? l1 l2 F]; subst.
  - constructor.
  - apply ra_file; [exact X|exact X2|now apply reordered_text_sym].
  - constructor.
  - constructor. clear H. induction F as [|[k x] [k' x'] l l' [E H] F IHF]; [constructor|]. inversion IH as [|? ? A B]; subst. constructor; [|now apply IHF].
    cbn in *. subst k'. split; [reflexivity|]. now apply A.
Qed.

Section Transfer.
  Variable h : host.
  Variable ps : list plugin.
  Hypothesis G : plugins_give unmoved ps.
  Local Notation ra := (rearranged h ps).
  Definition changed (name : text) (b b' : bytes) : Prop := b = b' \/ (has_ext name (lit "html") /\ name <> lit "root.html" /\ reordered_text h ps b b').

  Lemma at_moved e ks x : ent_at e ks x -> forall name e', ra name e e' -> exists x', ent_at e' ks x' /\ ra (last ks name) x x'.
  Proof.
    induction 1 as [e|l k e ks x I A IH]; intros name e' S.
    - exists e'. split; [constructor|exact S].
    - inversion S as [| | |? ? l' F]; subst. destruct (Forall2_in_l _ _ _ _ F I) as ([k' e1] & I' & E & S'). cbn in E, S'. subst k'.
      destruct (IH _ _ S') as (x' & A' & X). exists x'. split; [econstructor; eassumption|]. destruct ks as [|k1 ks]; [exact X|].
      change (last (k :: k1 :: ks) name) with (last (k1 :: ks) name). rewrite (last_any _ (k1 :: ks) name k); [exact X|discriminate].
  Qed.
  Lemma file_moved name b x : ra name (EFile b) x -> exists b', x = EFile b' /\ changed name b b'.
  Proof. inversion 1; subst; eexists; (split; [reflexivity|]); unfold changed; auto. Qed.
  Lemma moved_at e e' ks name b : ra [] e e' -> ent_at e (ks ++ [name]) (EFile b) -> exists b', ent_at e' (ks ++ [name]) (EFile b') /\ changed name b b'.
  Proof.
    intros S A. destruct (at_moved _ _ _ A _ _ S) as (x' & A' & X). rewrite last_last in X. apply file_moved in X. destruct X as (b' & -> & X). now exists b'.
  Qed.
  Lemma dir_moved e e' ks l : ra [] e e' -> ent_at e ks (EDir l) -> exists l', ent_at e' ks (EDir l') /\ Forall2 (fun x x' => fst x = fst x' /\ ra (fst x) (snd x) (snd x')) l l'.
  Proof. intros S A. destruct (at_moved _ _ _ A _ _ S) as (x' & A' & X). inversion X; subst. eexists. split; eassumption. Qed.
  Lemma json_moved e e' : ra [] e e' -> forall f j, site_json h e f j -> site_json h e' f j.
  Proof.
    intros S f j (ks & name & b & t & Pt & A & X & U & Hj). destruct (moved_at _ _ _ _ _ S A) as (b' & A' & [<-|[Y _]]); [|discriminate (has_ext_unique _ _ _ X Y)].
    exists ks, name, b, t. auto.
  Qed.
  Variable vars : list (text * value).
  Lemma post_moved e e' : ra [] e e' -> forall b v, post h ps vars e b v -> post h ps vars e' b v.
  Proof.
    intros S b v (t & fm & body & l & o & new & secs & out & l1 & l2 & U & M & W & Pr & R). exists t, fm, body, l, o, new, secs, out, l1, l2.
    split; [exact U|]. split; [exact M|]. split; [exact W|]. split; [|exact R]. eapply prints_mono; [|intros d vs X; exact X|exact Pr]. now apply json_moved.
  Qed.
  Lemma entries_moved e e' : ra [] e e' -> forall l vs, entry_posts h ps vars e l vs -> forall l', Forall2 (fun x x' => fst x = fst x' /\ ra (fst x) (snd x) (snd x')) l l' ->
    entry_posts h ps vars e' l' vs.
  Proof.
    intros S. induction 1 as [|name b v l vs X Po En IH|name x l vs N En IH]; intros l' F; inversion F as [|? [k' x'] ? l2 [E X'] F']; subst.
    - constructor.
    - cbn in E, X'. subst k'. apply file_moved in X'. destruct X' as (b' & -> & [<-|[Y _]]); [|discriminate (has_ext_unique _ _ _ X Y)]. apply ep_post; [exact X|eapply post_moved; eassumption|now apply IH].
    - cbn in E, X'. subst k'. apply ep_other; [|now apply IH]. intros (Y & b' & ->). apply N. split; [exact Y|]. inversion X'; subst; eauto.
  Qed.
  Lemma posts_moved e e' : ra [] e e' -> forall d vs, site_posts h ps vars e d vs -> site_posts h ps vars e' d vs.
  Proof.
    intros S d vs (ks & l & Pt & A & En). destruct (dir_moved _ _ _ _ S A) as (l' & A' & F). exists ks, l'. split; [exact Pt|]. split; [exact A'|]. eapply entries_moved; eassumption.
  Qed.

  Section One.
  Variable e e' : ent.
  Hypothesis S : ra [] e e'.
  Let S' : ra [] e' e := rearranged_sym _ _ _ _ _ S.

  Lemma says_here l vs secs o secs' : says h ps vars e l vs secs o secs' -> says h ps vars e' l vs secs o secs'.
  Proof. intros [new Pr]. exists new. eapply prints_mono; [exact (json_moved _ _ S)|exact (posts_moved _ _ S)|exact Pr]. Qed.
  (** A page records sections that cannot be told from those of the other. *)
  Lemma says_moved l l' vs o secs' : quiet l -> reordered l l' -> says h ps vars e l vs [] o secs' -> exists o2 s2, says h ps vars e' l' vs [] o2 s2 /\ all_same secs' s2.
  Proof.
    intros Q R [new Pr]. destruct (reordered_moves (h_date h) (site_json h e) (site_posts h ps vars e) _ _ R) as (_ & _ & _ & M). destruct (M Q) as [M1 _].
    destruct (M1 [vs] [] o new secs' ltac:(discriminate) Pr [] (fun n => eq_refl)) as (o2 & s2 & Pr2 & E). exists o2, s2. split; [|exact E]. apply says_here. now exists new.
  Qed.
  (** The layout prints the same. *)
  Lemma says_layout l vs secs s2 o secs' : quiet l -> all_same secs s2 -> says h ps vars e l vs secs o secs' -> exists s3, says h ps vars e' l vs s2 o s3.
  Proof.
    intros Q Sa [new Pr]. destruct (carry _ _ _ _ _ _ _ _ _ Pr Q) as (ad & -> & _ & K). exists (s2 ++ ad). apply says_here. exists new. apply K. intros n _. apply Sa.
  Qed.
  Lemma template_quiet name ks l : template_at h ps e name ks l -> quiet l.
  Proof. intros (ks1 & ks2 & b & t & _ & _ & _ & _ & W). now apply (written_quiet _ _ _ _ G) in W. Qed.
  Lemma template_moved name ks l : template_at h ps e name ks l -> exists l', template_at h ps e' name ks l' /\ reordered l l' /\ (name = lit "root.html" -> l' = l).
  Proof.
    intros (ks1 & ks2 & b & t & -> & A & N & U & W). destruct (moved_at _ _ _ _ _ S A) as (b' & A' & T).
    assert (N' : forall a c x, ks2 = a ++ c -> a <> [] -> ~ ent_at e' (ks1 ++ a ++ [name]) x).
    { intros a c x E Ne X. destruct (at_moved _ _ _ X _ _ S') as (x' & X' & _). now apply (N a c x'). }
    destruct T as [<-|(Y & Y2 & t1 & t' & l1 & l' & U1 & U' & W1 & W' & R)].
    - exists l. split; [|split; [apply ro_same|reflexivity]]. exists ks1, ks2, b, t. auto.
    - assert (t1 = t) as -> by (eapply utf8_text_fun; eassumption). assert (l1 = l) as -> by (eapply written_one; eassumption).
      exists l'. split; [|split; [exact R|contradiction]]. exists ks1, ks2, b', t'. auto.
  Qed.
  Lemma page_moved ks name b b' name' o : changed name b b' -> ~ is_template name ->
    page_of_file h ps vars e ks name b name' o -> page_of_file h ps vars e' ks name b' name' o.
  Proof.
    intros T Nt Pg. inversion Pg as [? ? t page root o1 secs ? secs' X N U W Tr S1 S2|stem ? v page root o1 secs ? secs' Ns Po Tp Tr S1 S2|? ? C]; subst.
    - destruct (template_moved _ _ _ Tr) as (root' & Tr' & _ & Er). specialize (Er eq_refl). subst root'.
      assert (Q : quiet page) by now apply (written_quiet _ _ _ _ G) in W. assert (Qr := template_quiet _ _ _ Tr).
      destruct T as [<-|(_ & _ & t1 & t' & l1 & l' & U1 & U' & W1 & W' & R)].
      + eapply pf_html; try eassumption; eapply says_here; eassumption.
      + assert (t1 = t) as -> by (eapply utf8_text_fun; eassumption). assert (l1 = page) as -> by (eapply written_one; eassumption).
        destruct (says_moved _ _ _ _ _ Q R S1) as (o2 & s2 & S1' & Sa). destruct (says_layout _ _ _ _ _ _ Qr Sa S2) as (s3 & S2').
        eapply pf_html; eassumption.
    - assert (X : has_ext (stem ++ lit ".md") (lit "md")) by (exists stem; repeat split; [exact Ns|vm_compute; intuition discriminate]).
      destruct T as [<-|(Y & _)]; [|discriminate (has_ext_unique _ _ _ X Y)].
      destruct (template_moved _ _ _ Tr) as (root' & Tr' & _ & Er). specialize (Er eq_refl). subst root'. destruct (template_moved _ _ _ Tp) as (page' & Tp' & Rp & _).
      assert (Q := template_quiet _ _ _ Tp). assert (Qr := template_quiet _ _ _ Tr).
      destruct (says_moved _ _ _ _ _ Q Rp S1) as (o2 & s2 & S1' & Sa). destruct (says_layout _ _ _ _ _ _ Qr Sa S2) as (s3 & S2').
      eapply pf_md; try eassumption. eapply post_moved; eassumption.
    - destruct T as [<-|(Y & _)]; [now apply pf_copy|]. destruct C as [C|[C|(C & _)]]; [contradiction|discriminate (has_ext_unique _ _ _ C Y)|contradiction].
  Qed.
  Lemma published_moved ks name o : ~ is_template name -> published h ps vars e ks name o -> published h ps vars e' ks name o.
  Proof.
    intros Nt (src & b & A & Pg). destruct (moved_at _ _ _ _ _ S A) as (b' & A' & T). exists src, b'. split; [exact A'|]. eapply page_moved; [exact T| |exact Pg].
    inversion Pg; subst; auto. intros [X|X]; apply (f_equal (@rev _)) in X; rewrite rev_app_distr in X; discriminate X.
  Qed.
  Lemma template_or name : is_template name \/ ~ is_template name.
  Proof. unfold is_template. destruct (CliFacts.text_eqb_spec name (lit "root.html")) as [->|N1]; [auto|]. destruct (CliFacts.text_eqb_spec name (lit "md.html")) as [->|N2]; [auto|tauto]. Qed.
  Lemma published_too ks name o : published h ps vars e ks name o -> exists o', published h ps vars e' ks name o'.
  Proof.
    intros (src & b & A & Pg). destruct (moved_at _ _ _ _ _ S A) as (b' & A' & T). destruct (template_or src) as [D|D].
    - assert (name = src) as -> by (inversion Pg; subst; try contradiction; auto; destruct D as [X|X]; apply (f_equal (@rev _)) in X; rewrite rev_app_distr in X; discriminate X).
      exists b', src, b'. split; [exact A'|]. apply pf_copy. now left.
    - exists o, src, b'. split; [exact A'|]. eapply page_moved; eassumption.
  Qed.
  Lemma order_moved : site_in_order h ps vars e -> site_in_order h ps vars e'.
  Proof.
    intros ([l E] & No & F). split; [|split].
    - destruct (dir_moved e e' [] l S) as (l' & A & _); [rewrite E; constructor|]. inversion A; subst. now exists l'.
    - intros ks A. destruct (at_moved _ _ _ A _ _ S') as (x & A' & X). inversion X; subst. now apply No in A'.
    - intros ks name b' A'. destruct (moved_at _ _ _ _ _ S' A') as (b & A & T'). destruct (F _ _ _ A) as ((name' & o & Pg) & Tm & Js).
      assert (T : changed name b b') by (destruct T' as [->|(Y & Y2 & R)]; [now left|right; split; [exact Y|]; split; [exact Y2|now apply reordered_text_sym]]).
      split; [|split].
      + destruct (template_or name) as [D|D]; [exists name, b'; now apply pf_copy; left|]. exists name', o. eapply page_moved; eassumption.
      + intros It. destruct T as [<-|(_ & _ & t & t' & l1 & l2 & _ & U' & _ & W' & _)]; [now apply Tm|eauto].
      + intros X. destruct T as [<-|(Y & _)]; [now apply Js|discriminate (has_ext_unique _ _ _ X Y)].
  Qed.
  End One.
  Section Both.
  Variable e e' : ent.
  Hypothesis S : ra [] e e'.
  Let S' : ra [] e' e := rearranged_sym _ _ _ _ _ S.
  Lemma order_both : site_in_order h ps vars e <-> site_in_order h ps vars e'.
  Proof. split; [now apply order_moved|now apply order_moved]. Qed.
  Lemma published_both ks name o : ~ is_template name -> published h ps vars e ks name o <-> published h ps vars e' ks name o.
  Proof. intros N. split; now apply published_moved. Qed.
  Variable cf : config.
  Variable statics : ent.
  Lemma files_both q o : SpecSite.file_at h ps vars e cf statics q o <-> SpecSite.file_at h ps vars e' cf statics q o.
  Proof.
    unfold SpecSite.file_at. assert (X : page_at h ps vars e cf q o <-> page_at h ps vars e' cf q o); [|tauto].
    split; intros (ks & name & Pu & Hi & Sa); exists ks, name; (split; [|now split]); (apply published_both || apply published_both in Pu); auto; intros T; apply Hi; now left.
  Qed.
  Lemma folders_back q : folder_at h ps vars e' cf statics q -> folder_at h ps vars e cf statics q.
  Proof.
    intros [[[l A]|(ks & name & o & stem & Pu & Hi & St & E)]|X].
    - destruct (dir_moved _ _ _ _ S' A) as (l' & A' & _). left. left. now exists l'.
    - left. right. exists ks, name, o, stem. split; [|auto]. apply published_both; [|exact Pu]. intros T. apply Hi. now left.
    - now right.
  Qed.
  End Both.
End Transfer.

Lemma builds_moved h osenv mode d d' st content content' : sd_ent d = Some content -> sd_ent d' = Some content' -> plugins_give unmoved (st_plugins st) ->
  plain_site h (st_plugins st) osenv mode content -> plain_site h (st_plugins st) osenv mode content' ->
  rearranged h (st_plugins st) [] content content' ->
  (snd (build h osenv mode d st) = Ok tt <-> snd (build h osenv mode d' st) = Ok tt).
Proof.
  intros E E' G Pl Pl' S. rewrite (build_exactly _ _ _ _ _ _ E Pl), (build_exactly _ _ _ _ _ _ E' Pl'). now apply order_both.
Qed.
Lemma pages_moved h osenv mode d d' st content content' out out' : sd_ent d = Some content -> sd_ent d' = Some content' -> plugins_give unmoved (st_plugins st) ->
  ent_distinct content -> ent_distinct content' -> site_in_order h (st_plugins st) (page_vars osenv mode) content ->
  rearranged h (st_plugins st) [] content content' ->
  snd (build h osenv mode d st) = Ok tt /\ snd (build h osenv mode d' st) = Ok tt /\
  (st_output (fst (build h osenv mode d st)) = Some out -> st_output (fst (build h osenv mode d' st)) = Some out' ->
   forall ks name o, ~ is_template name ->
     ((exists pc m src, at_names out (ks ++ [name]) (NFile name o pc m src)) <-> (exists pc m src, at_names out' (ks ++ [name]) (NFile name o pc m src)))).
Proof.
  intros E E' G D D' O S. assert (O' := proj1 (order_both _ _ G _ _ _ S) O).
  assert (B := site_builds _ _ _ _ _ _ E D O). assert (B' := site_builds _ _ _ _ _ _ E' D' O').
  split; [exact B|]. split; [exact B'|]. intros Eo Eo' ks name o N.
  rewrite (site_files _ _ _ _ _ _ _ B Eo E D O), (site_files _ _ _ _ _ _ _ B' Eo' E' D' O'). now apply published_both.
Qed.
Lemma project_moved m c d d' content content' statics : cx_pre c = [] -> cx_post c = [] -> cf_meta (st_config (cx_stuart c)) = false ->
  plugins_give unmoved (st_plugins (cx_stuart c)) ->
  project_ready c d content statics -> project_ready c d' content' statics ->
  no_conflict (m_host m) (st_plugins (cx_stuart c)) (page_vars (m_osenv m) (cx_mode c)) content statics ->
  no_overlap (m_host m) (st_plugins (cx_stuart c)) (page_vars (m_osenv m) (cx_mode c)) content (st_config (cx_stuart c)) statics ->
  site_in_order (m_host m) (st_plugins (cx_stuart c)) (page_vars (m_osenv m) (cx_mode c)) content ->
  rearranged (m_host m) (st_plugins (cx_stuart c)) [] content content' ->
  exists c1 d1 c2 d2, cli_build m no_faults c d = (c1, d1, COk) /\ cli_build m no_faults c d' = (c2, d2, COk) /\
    forall q o, what (output_dir c ++ q) d1 = KFile o <-> what (output_dir c ++ q) d2 = KFile o.
Proof.
  intros Pre Post Me G (L1 & St1 & T1 & D1 & I1 & So & O1 & Pa1 & Wo1) (L2 & St2 & T2 & D2 & I2 & _ & _ & Pa2 & Wo2) [C1 C2] [Ov1 Ov2] Or S.
  assert (S' := rearranged_sym _ _ _ _ _ S).
  destruct (project_built m c d content statics) as (c1 & d1 & B1 & F1); auto; [split; assumption|split; assumption|].
  destruct (project_built m c d' content' statics) as (c2 & d2 & B2 & F2); auto.
  - now apply (order_both _ _ G _ _ _ S).
  - split.
    + intros ks name x o A Pu. destruct (published_too _ _ G _ _ _ S' _ _ _ Pu) as [o' Pu']. exact (C1 _ _ _ _ A Pu').
    + intros ks b l A A'. destruct (dir_moved _ _ _ _ _ _ S' A') as (l' & X & _). exact (C2 _ _ _ A X).
  - split.
    + intros q o o' A A'. apply (files_both _ _ G _ _ _ S) in A, A'. exact (Ov1 _ _ _ A A').
    + intros q o A Fo. apply (files_both _ _ G _ _ _ S) in A. apply (folders_back _ _ G _ _ _ S) in Fo. exact (Ov2 _ _ A Fo).
  - exists c1, d1, c2, d2. split; [exact B1|]. split; [exact B2|]. intros q o. rewrite F1, F2. apply (files_both _ _ G _ _ _ S).
Qed.

(** ** Plugins *)
Lemma acts_unmoved p beh : acts p beh -> (forall l sc secs secs', sc <> [] -> beh l sc secs' = beh l sc secs) -> unmoved p.
Proof.
  intros A B beh' l sc secs secs' A' N. destruct sc as [|vs r]; [contradiction|]. rewrite <- !(beh_of_eq p beh') by exact A'. rewrite !(beh_of_eq p beh) by exact A. now apply B.
Qed.
Lemma js_unmoved name code : forall r p, pp_parse (Js.js_plugin_parser name code) r = inr p -> unmoved p.
Proof. intros r p E. injection E as <-. apply (acts_unmoved _ _ (JsFacts.js_acts None code (rf_pos r))). reflexivity. Qed.
Lemma demo_unmoved r p : pp_parse Shipped.demo_parser r = inr p -> unmoved p.
Proof.
  intros E. assert (p = Shipped.demo_fn) as -> by (cbn in E; destruct (rf_pos r), (rf_named r); try discriminate; now injection E as <-).
  apply (acts_unmoved _ (fun _ _ _ => Ok (enc (lit "<p>This was written by the demo function!</p>"), []))); [|reflexivity].
  intros l [i st secs] f rest E0. cbn in E0. subst st. destruct f as [fn fv fo]. cbn [sc_idx sc_stack sc_secs fr_name fr_vars fr_out]. rewrite app_nil_r. reflexivity.
Qed.
Lemma ours_unmoved o ps : (forall pl, In pl ps -> In pl [Shipped.imgopt o; Shipped.demo] \/ forall f, In f (pl_fns pl) -> exists name code, f = Js.js_plugin_parser name code) ->
  plugins_give unmoved ps.
Proof.
  intros H pl f raw g I F E. destruct (H _ I) as [[<-|[<-|[]]]|J].
  - destruct F.
  - destruct F as [<-|[]]. now apply demo_unmoved in E.
  - destruct (J f F) as (name & code & ->). now apply js_unmoved in E.
Qed.
