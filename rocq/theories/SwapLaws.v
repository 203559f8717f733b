(** SwapLaws.v -- blocks that print the same (C91). *)

From Coq Require Import String List NArith ZArith Bool Lia ZifyBool ZifyNat ZifyN.
From Verif Require Import Text TextFacts Utf8 Json Base Syntax Parse Tree Interp Build Disk Cli.
From Verif Require Import SpecScope SpecPage SpecRender SpecTemplate SpecLoop SpecBlocks SpecMarkdown SpecTree SpecUtf8 SpecDisk SpecProject SpecSite SpecExact SpecSwap.
From Verif Require Import Utf8Facts ScopeFacts InterpFacts RenderFacts SelectFacts BlockFacts TextFnFacts LoopFacts MarkdownFacts
  TreeFacts PathFacts CliFacts GrammarFacts SiteFacts ExactFacts SwapFacts LocalFacts NeedsFacts ReadsFacts SiteDisk.
Import ListNotations.

(** ** What is printed is determined *)
Definition one {A B : Type} (R : A -> B -> Prop) : Prop := forall a b b', R a b -> R a b' -> b = b'.

Lemma value_one v sc x y : value_of v sc x -> value_of v sc y -> x = y.
Proof. intros A B. apply value_get in A, B. rewrite A in B. now injection B. Qed.
Lemma decided_one sc c b b' : decided sc c b -> decided sc c b' -> b = b'.
Proof. intros A B. apply decided_holds in A, B. rewrite A in B. now injection B. Qed.

Section One.
  Variable h : host.
  Variable J : text -> value -> Prop.
  Variable P : text -> list value -> Prop.
  Hypothesis J1 : one J.
  Hypothesis P1 : one P.
  Lemma shows_one vs r secs b o new o' new' : shows (h_date h) J (vs :: r) secs b o new -> shows (h_date h) J (vs :: r) secs b o' new' -> o = o' /\ new = new'.
  Proof.
    intros A B. destruct (shows_simple _ _ _ _ _ _ _ A) as [Si|[p ->]].
    2: { inversion A; subst. inversion B; subst. match goal with X : acts p beh, Y : acts p beh0, U : forall l, beh l _ _ = _, V : forall l, beh0 l _ _ = _ |- _ =>
      specialize (U (Loc [] 0 0)); specialize (V (Loc [] 0 0)); rewrite <- (beh_of_eq p) in U by exact X; rewrite <- (beh_of_eq p) in V by exact Y; rewrite U in V; injection V; intros; subst; now split end. }
    set (sc := vs :: r) in *.
    assert (D : (exists x file, b = BImport x file) \/ (forall x file, b <> BImport x file)) by (destruct b; try (right; discriminate); eauto).
    destruct D as [(x & file & ->)|N].
    - inversion A; subst. inversion B; subst. split; [reflexivity|]. repeat f_equal. eapply J1; eassumption.
    - assert (F : forall o new, shows (h_date h) J sc secs b o new -> shows (h_date h) (fun _ _ => False) sc secs b o new).
      { intros o0 new0 H. inversion H; subst; try (econstructor; eassumption). now destruct (N x file). }
      assert (T : exists t, tags b = [t]) by (destruct b; try destruct Si; eexists; reflexivity). destruct T as [t T].
      assert (L := fun o new (H : shows (h_date h) J sc secs b o new) => shows_leaf h (NDir [] [] []) (fun _ _ => False) (fun _ _ => False) (fun _ _ (X : False) => match X with end) (fun _ _ (X : False) => match X with end) sc secs b o new t (F o new H) Si T).
      apply L in A, B. rewrite A in B. injection B; intros; subst. now split.
  Qed.
  Lemma over_one f sc vs vs' : loop_over J P f sc vs -> loop_over J P f sc vs' -> vs = vs'.
  Proof.
    intros A B. inversion A; subst; inversion B; subst; try congruence.
    - eapply P1; eassumption.
    - match goal with X : J _ (VArr vs), Y : J _ (VArr vs') |- _ => assert (Z := J1 _ _ _ X Y) end. now injection Z.
    - match goal with X : value_of _ _ (VArr vs), Y : value_of _ _ (VArr vs') |- _ => assert (Z := value_one _ _ _ _ X Y) end. now injection Z.
  Qed.
  Definition printed_once (l : list block) sc secs o new secs' : Prop :=
    forall o1 new1 secs1, prints (h_date h) J P l sc secs o1 new1 secs1 -> o1 = o /\ new1 = new /\ secs1 = secs'.
  Ltac same1 := match goal with I : printed_once ?l ?sc ?s _ _ _, A : SpecSite.prints _ _ _ ?l ?sc ?s _ _ _ |- _ => destruct (I _ _ _ A) as (-> & -> & ->); clear I A end.
  Ltac same2 := match goal with I : forall o s, SpecSite.repeats _ _ _ ?b ?x ?vs ?sc ?s0 o s -> _, A : SpecSite.repeats _ _ _ ?b ?x ?vs ?sc ?s0 _ _ |- _ => destruct (I _ _ A) as (-> & ->); clear I A end.
  Lemma prints_one l sc secs o new secs' : prints (h_date h) J P l sc secs o new secs' -> printed_once l sc secs o new secs'.
  Proof.
    intros H. induction H using prints_mut with (P0 := fun body x vs sc secs o secs' => forall o1 secs1, repeats (h_date h) J P body x vs sc secs o1 secs1 -> o1 = o /\ secs1 = secs').
    all: repeat match goal with A : SpecSite.prints _ _ _ _ _ _ _ _ _ |- _ => clear A | A : SpecSite.repeats _ _ _ _ _ _ _ _ _ _ |- _ => clear A end.
    - intros o1 n1 s1 K. inversion K; subst. auto.
    - intros o1 n1 s1 K. assert (Si : bare b \/ exists p, b = BPlugin p) by (match goal with S : shows _ _ _ _ _ _ _ |- _ => exact (shows_simple _ _ _ _ _ _ _ S) end).
      inversion K; subst; try (destruct Si as [[]|[? Si]]; discriminate Si).
      match goal with A : shows _ _ _ _ _ ?x ?y, B : shows _ _ _ _ _ o new |- _ => destruct (shows_one _ _ _ _ _ _ _ _ A B) as [E1 E2] end. subst.
      same1. auto.
    - intros o1 n1 s1 K. inversion K; subst; [match goal with S : shows _ _ _ _ (BSection _ _) _ _ |- _ => inversion S end|].
      same1.
      same1. auto.
    - intros o1 n1 s1 K. inversion K; subst; [match goal with S : shows _ _ _ _ (BFor _ _) _ _ |- _ => inversion S end|].
      match goal with A : loop_over _ _ _ _ ?x, B : loop_over _ _ _ _ vs |- _ => assert (x = vs) by (eapply over_one; eassumption) end. subst.
      match goal with A : visits f vs ?x, B : visits f vs (v :: out) |- _ => assert (X : x = v :: out) by (eapply visits_unique; eassumption) end. rewrite X in *.
      same2.
      same1. auto.
    - intros o1 n1 s1 K. inversion K; subst; [match goal with S : shows _ _ _ _ (BIf _ _) _ _ |- _ => inversion S end| |].
      + same1.
        same1. auto.
      + match goal with A : decided _ _ true, B : decided _ _ false |- _ => discriminate (decided_one _ _ _ _ A B) end.
    - intros o1 n1 s1 K. inversion K; subst; [match goal with S : shows _ _ _ _ (BIf _ _) _ _ |- _ => inversion S end| |].
      + match goal with A : decided _ _ true, B : decided _ _ false |- _ => discriminate (decided_one _ _ _ _ A B) end.
      + same1. auto.
    - intros o1 n1 s1 K. inversion K; subst; [match goal with S : shows _ _ _ _ (BIfElse _ _ _) _ _ |- _ => inversion S end| |].
      + same1.
        same1. auto.
      + match goal with A : decided _ _ true, B : decided _ _ false |- _ => discriminate (decided_one _ _ _ _ A B) end.
    - intros o1 n1 s1 K. inversion K; subst; [match goal with S : shows _ _ _ _ (BIfElse _ _ _) _ _ |- _ => inversion S end| |].
      + match goal with A : decided _ _ true, B : decided _ _ false |- _ => discriminate (decided_one _ _ _ _ A B) end.
      + same1.
        same1. auto.
    - intros o1 s1 K. inversion K; subst. auto.
    - intros o1 s1 K. inversion K; subst.
      same1.
      same2. auto.
  Qed.
End One.

Section SiteOne.
  Variable h : host.
  Variable ps : list plugin.
  Variable vars : list (text * value).
  Variable content : ent.
  Hypothesis D : ent_distinct content.
  Lemma path_one p ks ks' : path_of p ks -> path_of p ks' -> ks = ks'.
  Proof. intros A B. apply path_components in A, B. rewrite A in B. now injection B. Qed.
  Lemma site_json_one : one (site_json h content).
  Proof.
    intros f j j' (ks & name & b & t & Pt & A & _ & U & E) (ks' & name' & b' & t' & Pt' & A' & _ & U' & E').
    assert (X := path_one _ _ _ Pt Pt'). rewrite <- X in A'. assert (Y := ent_unique _ _ _ A D _ A'). injection Y as <-.
    assert (t' = t) as -> by (eapply utf8_text_fun; eassumption). rewrite E in E'. now injection E'.
  Qed.
  Lemma post_one : one (post h ps vars content).
  Proof.
    intros b v v' (t & fm & body & l & o & new & secs & out & l1 & l2 & U & M & W & Pr & Uo & F1 & F2 & ->)
      (t' & fm' & body' & l' & o' & new' & secs' & out' & l1' & l2' & U' & M' & W' & Pr' & Uo' & F1' & F2' & ->).
    assert (t' = t) as -> by (eapply utf8_text_fun; eassumption).
    assert (X : fm = fm' /\ body = body').
    { apply (parts_parse (h_ext h) (fns ps) []) in M, M'. unfold md_result in M, M'.
      destruct (proj2 (parse_means (h_ext h) (fns ps) [] body (flat_map tags l)) W) as (toks & Pa & _).
      destruct (proj2 (parse_means (h_ext h) (fns ps) [] body' (flat_map tags l')) W') as (toks' & Pa' & _).
      rewrite Pa in M. rewrite Pa', M in M'. injection M'; intros; subst. now split. }
    destruct X as [<- <-]. assert (l' = l) as -> by (eapply written_one; eassumption).
    destruct (prints_one h _ _ site_json_one (fun _ _ _ (X : False) => match X with end) _ _ _ _ _ _ Pr _ _ _ Pr') as (-> & _ & _).
    assert (out' = out) as -> by (eapply utf8_text_fun; eassumption). apply set_field_key in F1, F2, F1', F2'. now subst.
  Qed.
  Lemma entries_one l vs : entry_posts h ps vars content l vs -> forall vs', entry_posts h ps vars content l vs' -> vs = vs'.
  Proof.
    induction 1 as [|name b v l vs X Po En IH|name x l vs N En IH]; intros vs' K; inversion K; subst.
    - reflexivity.
    - f_equal; [eapply post_one; eassumption|now apply IH].
    - match goal with N : ~ _ |- _ => destruct N end. eauto.
    - destruct N. eauto.
    - now apply IH.
  Qed.
  Lemma site_posts_one : one (site_posts h ps vars content).
  Proof.
    intros d vs vs' (ks & l & Pt & A & En) (ks' & l' & Pt' & A' & En'). rewrite <- (path_one _ _ _ Pt Pt') in A'.
    assert (Y := ent_unique _ _ _ A D _ A'). injection Y as <-. eapply entries_one; eassumption.
  Qed.
End SiteOne.

(** ** Laws *)
Ltac noshow := try (match goal with K : shows _ _ _ _ ?b _ _ |- _ => inversion K; fail end).
Section Laws.
  Variable h : host.
  Variable J : text -> value -> Prop.
  Variable P : text -> list value -> Prop.
  Local Notation prints := (prints (h_date h) J P).
  Local Notation repeats := (repeats (h_date h) J P).
  Local Notation interchangeable := (interchangeable (h_date h) J P).

  Lemma by_cases b b' : ~ simple b -> ~ simple b' -> (named_calls b <-> named_calls b') ->
    (forall l sc secs o new secs', prints (b :: l) sc secs o new secs' -> prints (b' :: l) sc secs o new secs') ->
    (forall l sc secs o new secs', prints (b' :: l) sc secs o new secs' -> prints (b :: l) sc secs o new secs') -> interchangeable [b] [b'].
  Proof. intros N N' Q A B. split; [split; intros F; inversion F; contradiction|]. split; [split; intros F; inversion F; (constructor; [|constructor]); now apply Q|]. intros. split; [apply A|apply B]. Qed.
  Lemma same_test c c' : (forall sc b, decided sc c b -> decided sc c' b) -> (forall sc b, decided sc c' b -> decided sc c b) ->
    forall yes no, interchangeable [BIf c yes] [BIf c' yes] /\ interchangeable [BIfElse c yes no] [BIfElse c' yes no].
  Proof.
    intros A B yes no. split; (apply by_cases; [intros X; exact X|intros X; exact X|reflexivity| |]); intros l sc secs o new secs' H; inversion H; subst; noshow;
      ((eapply pr_if; [eauto|eassumption|eassumption|eassumption]) || (eapply pr_skip; [eauto|eassumption|eassumption]) || (eapply pr_then; [eauto|eassumption|eassumption|eassumption|eassumption]) ||
       (eapply pr_else; [eauto|eassumption|eassumption|eassumption|eassumption])).
  Qed.
  Lemma empty_else c yes : interchangeable [BIf c yes] [BIfElse c yes []].
  Proof.
    apply by_cases; [intros X; exact X|intros X; exact X|reflexivity| |]; intros l sc secs o new secs' H; inversion H; subst; noshow.
    - eapply pr_then; try eassumption. constructor.
    - apply (pr_else _ _ _ c yes [] l sc secs [] [] secs o new secs'); try assumption; constructor.
    - eapply pr_if; eassumption.
    - match goal with K : SpecSite.prints _ _ _ [] _ _ _ _ _ |- _ => inversion K; subst end. cbn [app]. eapply pr_skip; eassumption.
  Qed.
  Lemma negated c c' : (forall sc b, decided sc c b -> decided sc c' (negb b)) -> (forall sc b, decided sc c' b -> decided sc c (negb b)) ->
    forall yes no, interchangeable [BIfElse c yes no] [BIfElse c' no yes].
  Proof.
    intros A B yes no. apply by_cases; [intros X; exact X|intros X; exact X|reflexivity| |]; intros l sc secs o new secs' H; inversion H; subst; noshow;
      match goal with D : decided _ _ _ |- _ => (apply A in D || apply B in D); cbn [negb] in D end;
      ((eapply pr_then; eassumption) || (eapply pr_else; eassumption)).
  Qed.
  Lemma eq_ne a b yes no : interchangeable [BIfElse (TCompare CEq a b) yes no] [BIfElse (TCompare CNe a b) no yes].
  Proof.
    apply negated; intros sc r D; inversion D as [| |? ? ? x y A B C|? ? ? x y A B C]; subst; cbn [negb].
    - eapply dc_no; [exact A|exact B|]. intros N. exact (N C).
    - eapply dc_yes; [exact A|exact B|exact C].
    - eapply dc_no; [exact A|exact B|exact C].
    - eapply dc_yes; [exact A|exact B|]. cbn in *. assert (Dec : x = y \/ x <> y); [|tauto].
      clear. destruct x as [z|s], y as [z'|s']; try (right; discriminate).
      + destruct (Z.eq_dec z z') as [->|N]; [now left|right; congruence].
      + destruct (CliFacts.text_eqb_spec s s') as [->|N]; [now left|right; congruence].
  Qed.
  Lemma compares_turned c c' x y : turned c = Some c' -> compares (made c) x y <-> compares (made c') y x.
  Proof.
    destruct c; intros E; try discriminate E; injection E as <-; cbn [made compares]; try (split; intros H; [now symmetry|now symmetry]);
      try (split; intros H X; apply H; now symmetry); destruct x, y; try reflexivity; lia.
  Qed.
  Lemma turn c c' a b : turned c = Some c' -> forall yes no,
    interchangeable [BIf (TCompare c a b) yes] [BIf (TCompare c' b a) yes] /\ interchangeable [BIfElse (TCompare c a b) yes no] [BIfElse (TCompare c' b a) yes no].
  Proof.
    intros E. apply same_test; intros sc r D; inversion D as [| |? ? ? x y A B C|? ? ? x y A B C]; subst.
    - eapply dc_yes; [exact B|exact A|]. now apply (compares_turned c c').
    - eapply dc_no; [exact B|exact A|]. intros X. apply C. now apply (compares_turned c c').
    - eapply dc_yes; [exact B|exact A|]. now apply (compares_turned c c').
    - eapply dc_no; [exact B|exact A|]. intros X. apply C. now apply (compares_turned c c').
  Qed.

  (** *** Loops in two parts *)
  Lemma repeats_app body x : forall a b sc secs o secs', repeats body x (a ++ b) sc secs o secs' <->
    exists o1 s1 o2, o = o1 ++ o2 /\ repeats body x a sc secs o1 s1 /\ repeats body x b sc s1 o2 secs'.
  Proof.
    induction a as [|v a IH]; intros b sc secs o secs'; split.
    - intros H. exists [], secs, o. split; [reflexivity|]. split; [constructor|exact H].
    - intros (o1 & s1 & o2 & -> & A & B). inversion A; subst. exact B.
    - intros H. cbn [app] in H. inversion H; subst. match goal with K : SpecSite.repeats _ _ _ _ _ (a ++ b) _ _ _ _ |- _ => apply IH in K; destruct K as (o1 & s1 & o2 & -> & A & B) end.
      do 3 eexists. split; [|split; [econstructor; eassumption|exact B]]. now rewrite app_assoc.
    - intros (o1 & s1 & o2 & -> & A & B). inversion A; subst. cbn [app]. rewrite <- app_assoc. econstructor; [eassumption|]. apply IH. do 3 eexists. split; [reflexivity|]. split; eassumption.
  Qed.
  Lemma select_parts n f vs : (n < N.of_nat (length (select f vs)))%N ->
    select f vs = select (first_part n f) vs ++ select (second_part n f) vs /\ N.of_nat (length (select (first_part n f) vs)) = n.
  Proof.
    unfold select, first_part, second_part. cbn [ff_sort ff_desc ff_skip ff_limit].
    set (us := if ff_desc f then rev _ else _). clearbody us.
    set (s := match ff_skip f with Some s => s | None => 0%N end).
    assert (E : match ff_skip f with Some n => skip_n n us | None => us end = skipn (N.to_nat s) us).
    { unfold s. destruct (ff_skip f); [apply skip_n_spec|reflexivity]. }
    rewrite E. rewrite skip_n_spec, take_n_spec. intros L.
    assert (Sk : skipn (N.to_nat (s + n)) us = skipn (N.to_nat n) (skipn (N.to_nat s) us)).
    { replace (N.to_nat (s + n)) with (N.to_nat s + N.to_nat n)%nat by lia. clear. generalize (N.to_nat n) as b. generalize (N.to_nat s) as a. intros a b. revert us.
      induction a as [|a IH]; intros [|u us]; cbn [plus skipn]; [reflexivity|reflexivity|now rewrite skipn_nil|apply IH]. }
    rewrite Sk. set (ws := skipn (N.to_nat s) us) in *. clearbody ws. destruct (ff_limit f) as [l|].
    - rewrite !take_n_spec in *. rewrite firstn_length in L. split; [|rewrite firstn_length; lia].
      replace (N.to_nat l) with (N.to_nat n + N.to_nat (l - n))%nat by lia. clear. generalize (N.to_nat n) as a. generalize (N.to_nat (l - n)) as b. intros b a. revert ws.
      induction a as [|a IH]; intros [|w ws]; cbn [plus firstn skipn app]; [reflexivity|reflexivity|now rewrite firstn_nil|]. f_equal. apply IH.
    - split; [now rewrite firstn_skipn|rewrite firstn_length; lia].
  Qed.
  Lemma visits_select f vs out : visits f vs out <-> out = select f vs.
  Proof. split; [intros V; eapply visits_unique; [exact V|apply select_visits]|intros ->; apply select_visits]. Qed.
  Lemma over_part f f' sc vs : ff_src f' = ff_src f -> ff_type f' = ff_type f -> loop_over J P f sc vs -> loop_over J P f' sc vs.
  Proof. intros E1 E2 H. inversion H; subst; [apply lv_dir|apply lv_json|apply lv_var]; rewrite ?E1, ?E2; assumption. Qed.
  Lemma same_loop f f' body : ff_var f' = ff_var f -> ff_src f' = ff_src f -> ff_type f' = ff_type f ->
    (forall sc vs out, loop_over J P f sc vs -> visits f vs out <-> visits f' vs out) -> interchangeable [BFor f body] [BFor f' body].
  Proof.
    intros E0 E1 E2 V. apply by_cases; [intros X; exact X|intros X; exact X|reflexivity| |]; intros l sc secs o new secs' H; inversion H; subst; noshow.
    - eapply pr_for; [eapply over_part; [exact E1|exact E2|eassumption]| |rewrite E0; eassumption|eassumption]. eapply V; eassumption.
    - match goal with L : loop_over _ _ f' _ _ |- _ => apply (over_part _ f) in L; [|now symmetry|now symmetry]; assert (L' := L) end.
      rewrite E0 in *. eapply pr_for; [eassumption| |eassumption|eassumption]. eapply V; eassumption.
  Qed.
  Lemma skip_zero f body : ff_skip f = Some 0%N -> interchangeable [BFor f body] [BFor (no_skip f) body].
  Proof. intros E. apply same_loop; try reflexivity. intros sc vs out _. unfold visits, no_skip. cbn [ff_sort ff_desc ff_skip ff_limit]. now rewrite E. Qed.
  Lemma limit_large f n body : ff_limit f = Some n ->
    (forall sc vs out, loop_over J P f sc vs -> visits (no_limit f) vs out -> (N.of_nat (length out) <= n)%N) -> interchangeable [BFor f body] [BFor (no_limit f) body].
  Proof.
    intros E L. apply same_loop; try reflexivity. intros sc vs out Ov. rewrite !visits_select. assert (Q := L sc vs _ Ov (select_visits _ _)). revert Q.
    unfold select, no_limit. cbn [ff_sort ff_desc ff_skip ff_limit]. rewrite E, take_n_spec.
    set (us := match ff_skip f with Some _ => _ | None => _ end). intros Q. rewrite firstn_all2; [reflexivity|lia].
  Qed.
  Hypothesis J1 : one J.
  Hypothesis P1 : one P.
  Lemma two_loops f n body : (0 < n)%N -> (forall sc vs out, loop_over J P f sc vs -> visits f vs out -> (n < N.of_nat (length out))%N) ->
    interchangeable [BFor f body] [BFor (first_part n f) body; BFor (second_part n f) body].
  Proof.
    intros N0 L. split; [split; intros F; inversion F as [|? ? X Y]; destruct X|]. split; [split; intros _; repeat constructor|]. intros sc secs o new secs'. split; intros H.
    - inversion H; subst; noshow.
      match goal with A : loop_over _ _ _ _ ?vs, B : visits _ _ _ |- _ => assert (Q := L _ _ _ A B); apply visits_select in B; rewrite B in Q; destruct (select_parts n f vs Q) as [E1 E2];
        set (a := select (first_part n f) vs) in *; set (b := select (second_part n f) vs) in *; assert (A1 := A) end.
      match goal with A : SpecSite.repeats _ _ _ body _ _ _ _ _ _, B : _ :: _ = select f _ |- _ => rewrite B, E1 in A; apply repeats_app in A; destruct A as (o1 & s1 & o2 & -> & R1 & R2) end.
      rewrite E1, app_length in Q.
      destruct a as [|x a'] eqn:Ea; [cbn in E2; lia|]. destruct b as [|y b'] eqn:Eb; [cbn [length] in Q, E2; lia|].
      rewrite <- app_assoc. eapply (pr_for _ _ _ (first_part n f)); [eapply over_part; [| |exact A1]; reflexivity|apply visits_select; symmetry; exact Ea|exact R1|].
      eapply (pr_for _ _ _ (second_part n f)); [eapply over_part; [| |exact A1]; reflexivity|apply visits_select; symmetry; exact Eb|exact R2|]. eassumption.
    - inversion H as [| | |? ? ? ? ? vs v out o1 s1 o2 new' ? Ov Vi Re Pr| | | | ]; subst; noshow.
      inversion Pr as [| | |? ? ? ? ? vs2 v2 out2 o3 s3 o4 new2 ? Ov2 Vi2 Re2 Pr2| | | | ]; subst; noshow.
      apply (over_part _ f) in Ov; [|reflexivity|reflexivity]. apply (over_part _ f) in Ov2; [|reflexivity|reflexivity].
      assert (vs2 = vs) as -> by (eapply over_one; eassumption).
      assert (Q := L _ _ _ Ov (select_visits f vs)). destruct (select_parts n f vs Q) as [E1 E2]. apply visits_select in Vi, Vi2.
      rewrite <- Vi, <- Vi2 in E1. rewrite app_assoc. eapply pr_for; [exact Ov|apply visits_select; symmetry; exact E1| |exact Pr2].
      apply (repeats_app body (ff_var f) (v :: out) (v2 :: out2)). do 3 eexists. split; [reflexivity|]. split; eassumption.
  Qed.
End Laws.

(** ** Sites *)
Section Sites.
  Variable h : host.
  Variable ps : list plugin.
  Variable vars : list (text * value).
  Variable e e' : ent.
  Hypothesis S : swapped_site h ps vars e e'.
  Let S' := swapped_sym _ _ _ _ _ _ _ _ _ S.
  Lemma json_back_same f j : site_json h e f j <-> site_json h e' f j.
  Proof. split; [exact (json_swapped _ _ _ _ _ _ _ S f j)|exact (json_swapped _ _ _ _ _ _ _ S' f j)]. Qed.
  Lemma posts_back_same d vs : site_posts h ps vars e d vs <-> site_posts h ps vars e' d vs.
  Proof. split; [exact (posts_swapped _ _ _ _ vars _ _ S d vs)|exact (posts_swapped _ _ _ _ vars _ _ S' d vs)]. Qed.
  Lemma order_same : site_in_order h ps vars e <-> site_in_order h ps vars e'.
  Proof.
    split; [apply (order_swapped _ _ _ _ vars _ _ S)|apply (order_swapped _ _ _ _ vars _ _ S')]; intros; try reflexivity; [apply json_back_same|apply posts_back_same].
  Qed.
  Lemma published_same ks name o : ~ is_template name -> published h ps vars e ks name o <-> published h ps vars e' ks name o.
  Proof.
    intros N. split; [apply (published_swapped _ _ _ _ vars _ _ S)|apply (published_swapped _ _ _ _ vars _ _ S')]; intros; try assumption; try reflexivity; [apply json_back_same|apply posts_back_same].
  Qed.
  Lemma published_back ks name o : published h ps vars e' ks name o -> exists o', published h ps vars e ks name o'.
  Proof. apply (published_some _ _ _ _ vars _ _ S'); intros; [apply json_back_same|apply posts_back_same]. Qed.
  Variable cf : config.
  Variable statics : ent.
  Lemma file_same q o : SpecSite.file_at h ps vars e cf statics q o <-> SpecSite.file_at h ps vars e' cf statics q o.
  Proof.
    unfold SpecSite.file_at. assert (X : page_at h ps vars e cf q o <-> page_at h ps vars e' cf q o); [|tauto].
    split; intros (ks & name & Pu & Hi & Sa); exists ks, name; (split; [|now split]); (apply published_same || apply published_same in Pu); auto; intros T; apply Hi; now left.
  Qed.
End Sites.
Lemma folder_same h ps vars e e' cf statics : swapped_site h ps vars e e' -> forall q, folder_at h ps vars e' cf statics q -> folder_at h ps vars e cf statics q.
Proof.
  intros S q [[[l A]|(ks & name & o & stem & Pu & Hi & St & E)]|X].
  - destruct (dir_swapped _ _ _ _ _ _ _ _ _ (swapped_sym _ _ _ _ _ _ _ _ _ S) A) as (l' & A' & _). left. left. now exists l'.
  - left. right. exists ks, name, o, stem. split; [|auto]. apply (published_same _ _ _ _ _ S); [|exact Pu]. intros T. apply Hi. now left.
  - now right.
Qed.
Lemma builds_same h osenv mode d d' st content content' : sd_ent d = Some content -> sd_ent d' = Some content' ->
  plain_site h (st_plugins st) osenv mode content -> plain_site h (st_plugins st) osenv mode content' ->
  swapped_site h (st_plugins st) (page_vars osenv mode) content content' ->
  (snd (build h osenv mode d st) = Ok tt <-> snd (build h osenv mode d' st) = Ok tt).
Proof.
  intros E E' Pl Pl' S. rewrite (build_exactly _ _ _ _ _ _ E Pl), (build_exactly _ _ _ _ _ _ E' Pl'). now apply order_same.
Qed.
Lemma pages_same h osenv mode d d' st content content' out out' : sd_ent d = Some content -> sd_ent d' = Some content' ->
  ent_distinct content -> ent_distinct content' -> site_in_order h (st_plugins st) (page_vars osenv mode) content ->
  swapped_site h (st_plugins st) (page_vars osenv mode) content content' ->
  snd (build h osenv mode d st) = Ok tt /\ snd (build h osenv mode d' st) = Ok tt /\
  (st_output (fst (build h osenv mode d st)) = Some out -> st_output (fst (build h osenv mode d' st)) = Some out' ->
   forall ks name o, ~ is_template name ->
     ((exists pc m src, at_names out (ks ++ [name]) (NFile name o pc m src)) <-> (exists pc m src, at_names out' (ks ++ [name]) (NFile name o pc m src)))).
Proof.
  intros E E' D D' O S. assert (O' := proj1 (order_same _ _ _ _ _ S) O).
  assert (B := site_builds _ _ _ _ _ _ E D O). assert (B' := site_builds _ _ _ _ _ _ E' D' O').
  split; [exact B|]. split; [exact B'|]. intros Eo Eo' ks name o N.
  rewrite (site_files _ _ _ _ _ _ _ B Eo E D O), (site_files _ _ _ _ _ _ _ B' Eo' E' D' O'). now apply published_same.
Qed.
Lemma project_same m c d d' content content' statics : cx_pre c = [] -> cx_post c = [] -> cf_meta (st_config (cx_stuart c)) = false ->
  project_ready c d content statics -> project_ready c d' content' statics ->
  no_conflict (m_host m) (st_plugins (cx_stuart c)) (page_vars (m_osenv m) (cx_mode c)) content statics ->
  no_overlap (m_host m) (st_plugins (cx_stuart c)) (page_vars (m_osenv m) (cx_mode c)) content (st_config (cx_stuart c)) statics ->
  site_in_order (m_host m) (st_plugins (cx_stuart c)) (page_vars (m_osenv m) (cx_mode c)) content ->
  swapped_site (m_host m) (st_plugins (cx_stuart c)) (page_vars (m_osenv m) (cx_mode c)) content content' ->
  exists c1 d1 c2 d2, cli_build m no_faults c d = (c1, d1, COk) /\ cli_build m no_faults c d' = (c2, d2, COk) /\
    forall q o, what (output_dir c ++ q) d1 = KFile o <-> what (output_dir c ++ q) d2 = KFile o.
Proof.
  intros Pre Post Me (L1 & St1 & T1 & D1 & I1 & So & O1 & Pa1 & Wo1) (L2 & St2 & T2 & D2 & I2 & _ & _ & Pa2 & Wo2) [C1 C2] [Ov1 Ov2] Or S.
  destruct (project_built m c d content statics) as (c1 & d1 & B1 & F1); auto; [split; assumption|split; assumption|].
  destruct (project_built m c d' content' statics) as (c2 & d2 & B2 & F2); auto.
  - now apply (order_same _ _ _ _ _ S).
  - split.
    + intros ks name x o A Pu. destruct (published_back _ _ _ _ _ S _ _ _ Pu) as [o' Pu']. exact (C1 _ _ _ _ A Pu').
    + intros ks b l A A'. destruct (dir_swapped _ _ _ _ _ _ _ _ _ (swapped_sym _ _ _ _ _ _ _ _ _ S) A') as (l' & X & _). exact (C2 _ _ _ A X).
  - split.
    + intros q o o' A A'. apply (file_same _ _ _ _ _ S) in A, A'. exact (Ov1 _ _ _ A A').
    + intros q o A Fo. apply (file_same _ _ _ _ _ S) in A. apply (folder_same _ _ _ _ _ _ _ S) in Fo. exact (Ov2 _ _ A Fo).
  - exists c1, d1, c2, d2. split; [exact B1|]. split; [exact B2|]. intros q o. rewrite F1, F2. apply (file_same _ _ _ _ _ S).
Qed.
Lemma html_written h ps b l : match from_utf8 b with
  | Some t => match parse_html (h_ext h) (fns ps) [] t with Ok toks => map t_inner toks = flat_map tags l | _ => False end
  | None => False
  end -> exists t, utf8_text b t /\ written (h_ext h) (map (fun p => (pl_name p, pl_fns p)) ps) t l.
Proof.
  destruct (from_utf8 b) as [t|] eqn:U; [|intros []]. intros M. exists t. split; [now apply decoding|].
  destruct (parse_html (h_ext h) (fns ps) [] t) as [toks| | |] eqn:P; try contradiction. apply (parse_means _ _ []). now exists toks.
Qed.
Lemma written_swap h ps vars content b b' l l' : match from_utf8 b with
  | Some t => match parse_html (h_ext h) (fns ps) [] t with Ok toks => map t_inner toks = flat_map tags l | _ => False end
  | None => False
  end -> match from_utf8 b' with
  | Some t => match parse_html (h_ext h) (fns ps) [] t with Ok toks => map t_inner toks = flat_map tags l' | _ => False end
  | None => False
  end -> rewritten (h_date h) (site_json h content) (site_posts h ps vars content) l l' ->
  rewritten_text h ps (h_date h) (site_json h content) (site_posts h ps vars content) vars b b'.
Proof.
  intros A B R. destruct (html_written _ _ _ _ A) as (t & U & W). destruct (html_written _ _ _ _ B) as (t' & U' & W'). exists t, t', l, l'. auto 10.
Qed.
Lemma posts_two_loops h ps vars content f n body : ent_distinct content -> (0 < n)%N -> ff_type f <> SrcVar ->
  (forall sc vs out, loop_over (site_json h content) (site_posts h ps vars content) f sc vs -> visits f vs out -> (n < N.of_nat (length out))%N) ->
  interchangeable (h_date h) (site_json h content) (site_posts h ps vars content) [BFor f body] [BFor (first_part n f) body; BFor (second_part n f) body].
Proof. intros D N _ H. apply two_loops; auto; [now apply site_json_one|now apply site_posts_one]. Qed.
