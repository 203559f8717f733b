(** JoinIfFacts.v -- neighbouring conditionals with the same condition (C91). *)

From Coq Require Import String List NArith ZArith Bool Lia.
From Verif Require Import Text Utf8 Json Base Syntax Parse Tree Interp Build Disk Cli.
From Verif Require Import SpecScope SpecRender SpecTemplate SpecLoop SpecBlocks SpecTree SpecSite SpecExact SpecSwap SpecJoinIf.
From Verif Require Import ScopeFacts SiteFacts SwapFacts SwapLaws.
Import ListNotations.

Section Merge.
  Variable h : host.
  Variable J : text -> value -> Prop.
  Variable P : text -> list value -> Prop.
  Local Notation prints := (prints (h_date h) J P).
  Local Notation interchangeable := (interchangeable (h_date h) J P).
  Lemma nothing_bound l : forall sc secs o new secs', Forall binds_nothing l -> prints l sc secs o new secs' -> new = [].
  Proof.
    induction l as [|b l IH]; intros sc secs o new secs' F H; [now inversion H|]. inversion F as [|? ? Fb Fl]; subst.
    inversion H as [|? ? ? ? ? ? ? ? ? ? Sh Pl| | | | | |]; subst; try (eapply IH; eassumption).
    assert (new0 = []) as -> by (inversion Sh; subst; try reflexivity; contradiction). cbn [app] in *. eapply IH; eassumption.
  Qed.
  Lemma join a b sc secs o1 n1 s1 o2 n2 s2 : Forall binds_nothing a -> prints a sc secs o1 n1 s1 -> prints b sc s1 o2 n2 s2 -> exists n, prints (a ++ b) sc secs (o1 ++ o2) n s2.
  Proof.
    intros F A B. assert (n1 = []) as -> by (eapply nothing_bound; eassumption). exists ([] ++ n2). eapply app_join; [exact A|]. destruct sc as [|vs r]; [exact B|]. cbn [bind_vars]. now rewrite app_nil_r.
  Qed.
  Lemma cut a b sc secs o n s2 : Forall binds_nothing a -> prints (a ++ b) sc secs o n s2 -> exists o1 n1 s1 o2 n2, prints a sc secs o1 n1 s1 /\ prints b sc s1 o2 n2 s2 /\ o = o1 ++ o2.
  Proof.
    intros F H. apply app_cut in H. destruct H as (o1 & n1 & s1 & o2 & n2 & A & B & -> & ->). assert (n1 = []) as -> by (eapply nothing_bound; eassumption).
    exists o1, [], s1, o2, n2. split; [exact A|]. split; [|reflexivity]. destruct sc as [|vs r]; [exact B|]. cbn [bind_vars] in B. now rewrite app_nil_r in B.
  Qed.
  Ltac done := match goal with K : SpecSite.prints _ _ _ [] _ _ _ _ _ |- _ => inversion K; subst; clear K end.
  Ltac clash := match goal with D : decided ?s ?c _, D' : decided ?s ?c _ |- _ => discriminate (decided_one _ _ _ _ D D') end.
  Lemma merge_if c a b : Forall binds_nothing a -> interchangeable [BIf c a; BIf c b] [BIf c (a ++ b)].
  Proof.
    intros F. split; [split; intros X; inversion X; contradiction|]. split; [split; intros _; repeat constructor|]. intros sc secs o new secs'. split; intros H.
    - inversion H; subst; noshow;
        match goal with K : SpecSite.prints _ _ _ [BIf c b] _ _ _ _ _ |- _ => inversion K; subst; noshow; clear K end; done; try clash.
      + match goal with A : SpecSite.prints _ _ _ a _ _ _ _ _, B : SpecSite.prints _ _ _ b _ _ _ _ _ |- _ => destruct (join _ _ _ _ _ _ _ _ _ _ F A B) as (n & Q) end.
        rewrite app_assoc. eapply pr_if; [eassumption|apply Forall_app; now split|exact Q|constructor].
      + apply pr_skip; [assumption|apply Forall_app; now split|constructor].
    - inversion H; subst; noshow; done.
      + match goal with A : SpecSite.prints _ _ _ (a ++ b) _ _ _ _ _ |- _ => destruct (cut _ _ _ _ _ _ _ F A) as (o1 & n1 & s1 & o2 & n2 & A1 & B1 & ->) end.
        match goal with X : Forall named_calls (a ++ b) |- _ => apply Forall_app in X; destruct X end. rewrite <- app_assoc.
        eapply pr_if; [eassumption|eassumption|exact A1|]. eapply pr_if; [eassumption|eassumption|exact B1|constructor].
      + match goal with X : Forall simple (a ++ b) |- _ => apply Forall_app in X; destruct X end. apply pr_skip; [assumption|assumption|]. apply pr_skip; [assumption|assumption|constructor].
  Qed.
  Lemma merge_ifelse c a b a' b' : Forall binds_nothing a -> Forall binds_nothing a' -> interchangeable [BIfElse c a a'; BIfElse c b b'] [BIfElse c (a ++ b) (a' ++ b')].
  Proof.
    intros F F'. split; [split; intros X; inversion X; contradiction|]. split; [split; intros _; repeat constructor|]. intros sc secs o new secs'. split; intros H.
    - inversion H; subst; noshow;
        match goal with K : SpecSite.prints _ _ _ [BIfElse c b b'] _ _ _ _ _ |- _ => inversion K; subst; noshow; clear K end; done; try clash.
      + match goal with A : SpecSite.prints _ _ _ a _ _ _ _ _, B : SpecSite.prints _ _ _ b _ _ _ _ _ |- _ => destruct (join _ _ _ _ _ _ _ _ _ _ F A B) as (n & Q) end.
        rewrite app_assoc. eapply pr_then; [eassumption|apply Forall_app; now split|apply Forall_app; now split|exact Q|constructor].
      + match goal with A : SpecSite.prints _ _ _ a' _ _ _ _ _, B : SpecSite.prints _ _ _ b' _ _ _ _ _ |- _ => destruct (join _ _ _ _ _ _ _ _ _ _ F' A B) as (n & Q) end.
        rewrite app_assoc. eapply pr_else; [eassumption|apply Forall_app; now split|apply Forall_app; now split|exact Q|constructor].
    - inversion H; subst; noshow; done; repeat match goal with X : Forall _ (_ ++ _) |- _ => apply Forall_app in X; destruct X end.
      + match goal with A : SpecSite.prints _ _ _ (a ++ b) _ _ _ _ _ |- _ => destruct (cut _ _ _ _ _ _ _ F A) as (o1 & n1 & s1 & o2 & n2 & A1 & B1 & ->) end. rewrite <- app_assoc.
        eapply pr_then; [eassumption|eassumption|eassumption|exact A1|]. eapply pr_then; [eassumption|eassumption|eassumption|exact B1|constructor].
      + match goal with A : SpecSite.prints _ _ _ (a' ++ b') _ _ _ _ _ |- _ => destruct (cut _ _ _ _ _ _ _ F' A) as (o1 & n1 & s1 & o2 & n2 & A1 & B1 & ->) end. rewrite <- app_assoc.
        eapply pr_else; [eassumption|eassumption|eassumption|exact A1|]. eapply pr_else; [eassumption|eassumption|eassumption|exact B1|constructor].
  Qed.
End Merge.
