(** ShareFacts.v -- importing a data file changes only what is about the variable (C107). *)

From Coq Require Import String List NArith ZArith Bool Lia.
From Verif Require Import Text TextFacts Utf8 Json Base Syntax Parse Tree Interp Build Disk Cli.
From Verif Require Import SpecScope SpecPage SpecRender SpecTemplate SpecLoop SpecBlocks SpecMarkdown SpecTree SpecUtf8 SpecDisk SpecProject SpecSite SpecExact SpecSwap SpecShare.
From Verif Require Import Utf8Facts ScopeFacts InterpFacts RenderFacts SelectFacts BlockFacts CliFacts SiteFacts ExactFacts TreeFacts SwapFacts SwapLaws.
Import ListNotations.

Section Share.
  Variable x : text.
  Definition rest_of (vs : list (text * value)) : list (text * value) := filter (fun b => negb (text_eqb (fst b) x)) vs.
  (** The same scopes but for the variable. *)
  Definition but_for (sc sc' : scopes) : Prop := Forall2 (fun vs vs' => rest_of vs = rest_of vs') sc sc'.

  Lemma rest_binding k vs v : k <> x -> first_binding k vs v <-> first_binding k (rest_of vs) v.
  Proof.
    intros N. rewrite <- !assoc_iff. induction vs as [|[a b] vs IH]; [reflexivity|]. unfold rest_of in *. cbn [assoc filter fst].
    destruct (text_eqb_spec a x) as [->|N1]; cbn [negb].
    - destruct (text_eqb_spec x k) as [->|N2]; [contradiction|exact IH].
    - cbn [assoc]. destruct (text_eqb a k); [reflexivity|exact IH].
  Qed.
  Lemma rest_in k vs : k <> x -> In k (map fst vs) <-> In k (map fst (rest_of vs)).
  Proof.
    intros N. induction vs as [|[a b] vs IH]; [reflexivity|]. unfold rest_of in *. cbn [filter fst map In].
    destruct (text_eqb_spec a x) as [->|N1]; cbn [negb map In fst]; rewrite IH; [|reflexivity]. split; [intros [E|H]; [destruct N; now symmetry|exact H]|now right].
  Qed.
  Lemma same_in k vs vs' : k <> x -> rest_of vs = rest_of vs' -> In k (map fst vs) -> In k (map fst vs').
  Proof. intros N E H. apply (proj2 (rest_in k vs' N)). rewrite <- E. exact (proj1 (rest_in k vs N) H). Qed.
  Lemma but_sym sc sc' : but_for sc sc' -> but_for sc' sc.
  Proof. intros H. induction H; constructor; auto. Qed.
  Lemma but_refl sc : but_for sc sc.
  Proof. induction sc; constructor; auto. Qed.
  Lemma bound_but k sc sc' v : k <> x -> but_for sc sc' -> bound k sc v -> bound k sc' v.
  Proof.
    intros N H (i & vs & o & -> & B & F). apply Forall2_app_inv_l in H. destruct H as (i' & o' & Hi & Ho & ->).
    inversion Ho as [|? vs' ? o1 E Ho1]; subst. exists i', vs', o1. split; [reflexivity|]. split.
    - apply (proj2 (rest_binding k vs' v N)). rewrite <- E. exact (proj1 (rest_binding k vs v N) B).
    - clear Ho B E. induction Hi as [|a a' i i' E Hi IH]; [constructor|]. inversion F as [|? ? A C]; subst. constructor; [|now apply IH].
      intros X. apply A. eapply same_in; [exact N| |exact X]. now symmetry.
  Qed.
  Lemma value_but name sc sc' v : ~ about x name -> but_for sc sc' -> value_of name sc v -> value_of name sc' v.
  Proof.
    intros N H (k & p & v0 & -> & Hk & Hp & B & F). exists k, p, v0. repeat split; auto. eapply bound_but; [|exact H|exact B].
    intros ->. apply N. now exists p.
  Qed.
  Lemma means_but i sc sc' o : (forall v, i = IVar v -> ~ about x v) -> but_for sc sc' -> SpecSite.means sc i o -> SpecSite.means sc' i o.
  Proof. intros N H M. inversion M; subst; econstructor; try eassumption; eapply value_but; eauto. Qed.
  Lemma decided_but c sc sc' b : ~ test_about x c -> but_for sc sc' -> decided sc c b -> decided sc' c b.
  Proof.
    intros N H D. assert (Hs := but_sym _ _ H). inversion D as [v y V|v V|? a a' o o' A B C|? a a' o o' A B C]; subst.
    - eapply dc_defined; [|eassumption]. eapply value_but; eauto.
    - apply dc_null. intros y Y. apply V. eapply value_but; eauto.
    - eapply dc_yes; [| |exact C]; (eapply means_but; [|exact H|eassumption]); intros v -> X; apply N; [left|right]; eauto.
    - eapply dc_no; [| |exact C]; (eapply means_but; [|exact H|eassumption]); intros v -> X; apply N; [left|right]; eauto.
  Qed.
  Lemma but_app vs vs' r r' new : but_for (vs :: r) (vs' :: r') -> but_for ((vs ++ new) :: r) ((vs' ++ new) :: r').
  Proof. intros H. inversion H; subst. constructor; [|assumption]. unfold rest_of in *. rewrite !filter_app. now f_equal. Qed.

  (** The variable stays bound as blocks go on. *)
  Lemma bound_more k vs r new v : bound k (vs :: r) v -> ~ In k (map fst new) -> bound k ((vs ++ new) :: r) v.
  Proof.
    intros (i & ws & o & E & B & F) N. destruct i as [|a i]; cbn [app] in E; injection E as <- ->.
    - exists [], (vs ++ new), o. split; [reflexivity|]. split; [|constructor]. now apply first_binding_app.
    - inversion F as [|? ? A C]; subst. exists ((vs ++ new) :: i), ws, o. split; [reflexivity|]. split; [exact B|]. constructor; [|exact C].
      rewrite map_app, in_app_iff. tauto.
  Qed.
  Lemma bound_inside k vs sc v : bound k sc v -> ~ In k (map fst vs) -> bound k (vs :: sc) v.
  Proof. intros (i & ws & o & -> & B & F) N. exists (vs :: i), ws, o. split; [reflexivity|]. split; [exact B|]. now constructor. Qed.
  Lemma value_bound sc v : ~ In c_dot x -> value_of x sc v <-> bound x sc v.
  Proof.
    intros D. split.
    - intros (k & p & v0 & E & Hk & Hp & B & F). destruct p as [|a p].
      + cbn in E. subst k. inversion F; subst. exact B.
      + exfalso. apply D. rewrite E. cbn [dotted]. apply in_or_app. right. now left.
    - intros B. exists x, [], v. split; [reflexivity|]. repeat split; auto. constructor.
  Qed.

  Variable file : text.
  Lemma shared_simple l l' : Forall2 (shared x file) l l' -> Forall simple l <-> Forall simple l'.
  Proof.
    induction 1 as [|b b' l l' Sh F IH]; [split; constructor|]. assert (E : simple b <-> simple b') by (destruct Sh; reflexivity).
    split; intros H; inversion H; subst; constructor; tauto.
  Qed.
  Lemma shared_named b : forall b', shared x file b b' -> named_calls b <-> named_calls b'.
  Proof.
    induction b as [b S|p|label l IH|f l IH|c yes IH|c yes no IH1 IH2] using block_ind2; intros b' Sh;
      [inversion Sh; subst; try reflexivity; destruct S|inversion Sh|inversion Sh as [| | | | | | |? ? l' F| | | |]; subst; clear Sh|inversion Sh; reflexivity..].
    cbn [named_calls]. revert l' F. induction IH as [|a l Ha IH' IHl]; intros l' F; inversion F as [|? a' ? l2 Sa F']; subst; [reflexivity|]. cbn [fold_right].
    assert (A := Ha a' Sa). assert (B := IHl l2 F'). tauto.
  Qed.
  Lemma shared_calls l l' : Forall2 (shared x file) l l' -> Forall named_calls l <-> Forall named_calls l'.
  Proof.
    induction 1 as [|b b' l l' Sh F IH]; [split; constructor|]. assert (E := shared_named b b' Sh).
    split; intros H; inversion H; subst; constructor; tauto.
  Qed.

  Variable date : option (text -> text -> option text).
  Variable J : text -> value -> Prop.
  Variable P : text -> list value -> Prop.
  Local Notation prints := (prints date J P).
  Local Notation repeats := (repeats date J P).
  Variable j : value.
  Hypothesis Hj : J file j.
  Hypothesis J1 : forall j', J file j' -> j' = j.
  Hypothesis Nd : ~ In c_dot x.

  (** Leaves. *)
  Lemma shared_shows b b' vs r vs' r' secs o new : shared x file b b' -> but_for (vs :: r) (vs' :: r') ->
    shows date J (vs :: r) secs b o new -> b' = b /\ shows date J (vs' :: r') secs b o new /\ ~ In x (map fst new).
  Proof.
    intros Sh H S. assert (V := fun v y N => value_but v _ _ y N H).
    destruct Sh; inversion S; subst; (split; [reflexivity|]); (split; [|try (intros []; fail)]); try (econstructor; eauto; fail).
    - match goal with E : _ :: _ = _ :: _ |- _ => injection E; intros; subst end. econstructor; [reflexivity| |assumption].
      inversion H; subst. match goal with A : ~ In y _ |- _ => intros X; apply A end. eapply same_in; [|symmetry; eassumption|exact X]. assumption.
    - cbn. intros [->|[]]. contradiction.
  Qed.
  Lemma shared_shows_back b b' vs r vs' r' secs o new : shared x file b b' -> but_for (vs :: r) (vs' :: r') ->
    shows date J (vs :: r) secs b' o new -> b = b' /\ shows date J (vs' :: r') secs b' o new /\ ~ In x (map fst new).
  Proof.
    intros Sh H S. assert (E : b = b') by (destruct Sh; try reflexivity; inversion S). subst b'.
    destruct (shared_shows _ _ _ _ _ _ _ _ _ Sh H S) as (_ & A & B). auto.
  Qed.
  Lemma over_but f sc sc' vs : (ff_type f = SrcVar -> ~ about x (ff_src f)) -> but_for sc sc' -> loop_over J P f sc vs -> loop_over J P f sc' vs.
  Proof. intros N H L. inversion L; subst; [now apply lv_dir|now apply lv_json|apply lv_var; [assumption|]]. eapply value_but; eauto. Qed.
  Lemma visits_over f vs out : visits f vs out <-> visits (over_variable x f) vs out.
  Proof. reflexivity. Qed.

  Ltac ih := match goal with I : _ |- _ => now apply I end.
  Ltac same := match goal with
    | F : Forall2 (shared x file) ?l ?l', K : Forall simple ?l |- Forall simple ?l' => exact (proj1 (shared_simple _ _ F) K)
    | F : Forall2 (shared x file) ?l ?l', K : Forall simple ?l' |- Forall simple ?l => exact (proj2 (shared_simple _ _ F) K)
    | F : Forall2 (shared x file) ?l ?l', K : Forall named_calls ?l |- Forall named_calls ?l' => exact (proj1 (shared_calls _ _ F) K)
    | F : Forall2 (shared x file) ?l ?l', K : Forall named_calls ?l' |- Forall named_calls ?l => exact (proj2 (shared_calls _ _ F) K)
    end.
  (** Blocks: the variable is bound on the one side. *)
  Lemma shared_prints l sc secs o new secs' : prints l sc secs o new secs' ->
    forall l' sc', Forall2 (shared x file) l l' -> but_for sc sc' -> bound x sc' j -> prints l' sc' secs o new secs'.
  Proof.
    intros H. induction H using prints_mut with (P0 := fun body y vs sc secs o secs' =>
      forall body' sc', y <> x -> Forall2 (shared x file) body body' -> but_for sc sc' -> bound x sc' j -> repeats body' y vs sc' secs o secs').
    - intros l' sc' F. inversion F; subst. constructor.
    - intros l' sc' F Hb B. inversion F as [|? b' ? l2 Sh F']; subst. inversion Hb as [|? vs' ? r' E Hr]; subst.
      match goal with S : shows _ _ _ _ _ _ _ |- _ => destruct (shared_shows _ _ _ _ _ _ _ _ _ Sh Hb S) as (-> & S' & N) end.
      eapply pr_simple; [exact S'|]. apply IHprints; [exact F'|now apply but_app|now apply bound_more].
    - intros l' sc' F Hb B. inversion F as [|? b' ? l2 Sh F']; subst. inversion Sh; subst. eapply pr_section; [|now apply IHprints2].
      apply IHprints1; [assumption|now constructor|]. apply bound_inside; [exact B|intros []].
    - intros l' sc' F Hb B. inversion F as [|? b' ? l2 Sh F']; subst. inversion Sh; subst.
      + eapply pr_for; [eapply over_but; eassumption|eassumption|ih|ih].
      + eapply pr_for; [|apply visits_over; eassumption|ih|ih].
        match goal with L : loop_over _ _ _ _ _ |- _ => inversion L; subst; try congruence end.
        match goal with L : J _ (VArr vs) |- _ => apply J1 in L; subst j end. apply lv_var; [reflexivity|]. now apply value_bound.
    - intros l' sc' F Hb B. inversion F as [|? b' ? l2 Sh F']; subst. inversion Sh; subst.
      eapply pr_if; [eapply decided_but; eassumption|same| |now apply IHprints2].
      apply IHprints1; [assumption|now constructor|]. apply bound_inside; [exact B|intros []].
    - intros l' sc' F Hb B. inversion F as [|? b' ? l2 Sh F']; subst. inversion Sh; subst.
      eapply pr_skip; [eapply decided_but; eassumption|same|now apply IHprints].
    - intros l' sc' F Hb B. inversion F as [|? b' ? l2 Sh F']; subst. inversion Sh; subst.
      eapply pr_then; [eapply decided_but; eassumption|same|same| |now apply IHprints2].
      apply IHprints1; [assumption|now constructor|]. apply bound_inside; [exact B|intros []].
    - intros l' sc' F Hb B. inversion F as [|? b' ? l2 Sh F']; subst. inversion Sh; subst.
      eapply pr_else; [eapply decided_but; eassumption|same|same| |now apply IHprints2].
      apply IHprints1; [assumption|now constructor|]. apply bound_inside; [exact B|intros []].
    - intros. constructor.
    - intros body' sc' Ny F Hb B. econstructor; [|ih]. apply IHprints; [exact F|now constructor|].
      apply bound_inside; [exact B|]. cbn. intros [E|[]]. contradiction.
  Qed.
  Lemma prints_shared l' sc' secs o new secs' : prints l' sc' secs o new secs' ->
    forall l sc, Forall2 (shared x file) l l' -> but_for sc' sc -> bound x sc' j -> prints l sc secs o new secs'.
  Proof.
    intros H. induction H using prints_mut with (P0 := fun body' y vs sc' secs o secs' =>
      forall body sc, y <> x -> Forall2 (shared x file) body body' -> but_for sc' sc -> bound x sc' j -> repeats body y vs sc secs o secs').
    - intros l1 sc' F. inversion F; subst. constructor.
    - intros l1 sc' F Hb B. inversion F as [|b' ? l2 ? Sh F']; subst. inversion Hb as [|? vs' ? r' E Hr]; subst.
      match goal with S : shows _ _ _ _ _ _ _ |- _ => destruct (shared_shows_back _ _ _ _ _ _ _ _ _ Sh Hb S) as (-> & S' & N) end.
      eapply pr_simple; [exact S'|]. apply IHprints; [exact F'|now apply but_app|now apply bound_more].
    - intros l1 sc' F Hb B. inversion F as [|b' ? l2 ? Sh F']; subst. inversion Sh; subst. eapply pr_section; [|now apply IHprints2].
      apply IHprints1; [assumption|now constructor|]. apply bound_inside; [exact B|intros []].
    - intros l1 sc' F Hb B. inversion F as [|b' ? l2 ? Sh F']; subst. inversion Sh; subst.
      + eapply pr_for; [eapply over_but; eassumption|eassumption|ih|ih].
      + eapply pr_for; [|apply visits_over; eassumption|ih|ih].
        match goal with L : loop_over _ _ _ _ _ |- _ => inversion L as [? X|? X|? X V]; subst; try discriminate X end.
        cbn [ff_src over_variable] in V. apply value_bound in V; [|exact Nd]. apply lv_json; [assumption|].
        assert (Ej : VArr vs = j) by (apply (proj2 (value_bound _ _ Nd)) in V, B; eapply value_one; eassumption). rewrite Ej. assumption.
    - intros l1 sc' F Hb B. inversion F as [|b' ? l2 ? Sh F']; subst. inversion Sh; subst.
      eapply pr_if; [eapply decided_but; eassumption|same| |now apply IHprints2].
      apply IHprints1; [assumption|now constructor|]. apply bound_inside; [exact B|intros []].
    - intros l1 sc' F Hb B. inversion F as [|b' ? l2 ? Sh F']; subst. inversion Sh; subst.
      eapply pr_skip; [eapply decided_but; eassumption|same|now apply IHprints].
    - intros l1 sc' F Hb B. inversion F as [|b' ? l2 ? Sh F']; subst. inversion Sh; subst.
      eapply pr_then; [eapply decided_but; eassumption|same|same| |now apply IHprints2].
      apply IHprints1; [assumption|now constructor|]. apply bound_inside; [exact B|intros []].
    - intros l1 sc' F Hb B. inversion F as [|b' ? l2 ? Sh F']; subst. inversion Sh; subst.
      eapply pr_else; [eapply decided_but; eassumption|same|same| |now apply IHprints2].
      apply IHprints1; [assumption|now constructor|]. apply bound_inside; [exact B|intros []].
    - intros. constructor.
    - intros body1 sc1 Ny F Hb B. econstructor; [|ih]. apply IHprints; [exact F|now constructor|].
      apply bound_inside; [exact B|]. cbn. intros [E|[]]. contradiction.
  Qed.

  (** The import in front. *)
  Lemma import_first l l' vs r secs o secs' : Forall2 (shared x file) l l' -> ~ In x (map fst vs) ->
    (exists new, prints l (vs :: r) secs o new secs') <-> (exists new, prints (BImport x file :: l') (vs :: r) secs o new secs').
  Proof.
    intros F N.
    assert (Hb : but_for (vs :: r) ((vs ++ [(x, j)]) :: r)).
    { constructor; [|apply but_refl]. unfold rest_of. rewrite filter_app. cbn [filter fst]. rewrite text_eqb_refl. cbn [negb]. now rewrite app_nil_r. }
    assert (B : bound x ((vs ++ [(x, j)]) :: r) j).
    { exists [], (vs ++ [(x, j)]), r. split; [reflexivity|]. split; [|constructor]. exists vs, []. now split. }
    split; intros [new H].
    - exists ([(x, j)] ++ new). change o with ([] ++ o). eapply pr_simple; [apply sh_import with (vs := vs) (r := r); auto|].
      eapply shared_prints; eassumption.
    - inversion H; subst. match goal with S : shows _ _ _ _ _ _ _ |- _ => inversion S; subst end.
      match goal with L : J file _ |- _ => apply J1 in L; subst end. eexists. cbn [app]. eapply prints_shared; [eassumption|exact F|now apply but_sym|exact B].
  Qed.
End Share.

(** ** Laws *)
Section Laws.
  Variable h : host.
  Variable ps : list plugin.
  Variable vars : list (text * value).
  Variable content : ent.
  Hypothesis D : ent_distinct content.
  Variable x file : text.
  Variable j : value.
  Hypothesis Hj : site_json h content file j.
  Hypothesis Nd : ~ In c_dot x.
  Local Notation J := (site_json h content).
  Local Notation P := (site_posts h ps vars content).
  Local Notation prints := (prints (h_date h) J P).
  Local Notation interchangeable := (interchangeable (h_date h) J P).
  Let J1 : forall j', J file j' -> j' = j := fun j' H => site_json_one h content D _ _ _ H Hj.
  Variable l l' : list block.
  Hypothesis F : Forall2 (shared x file) l l'.

  Lemma first_import vs r secs o secs' : ~ In x (map fst vs) ->
    (exists new, prints l (vs :: r) secs o new secs') <-> (exists new, prints (BImport x file :: l') (vs :: r) secs o new secs').
  Proof. intros N. exact (import_first x file (h_date h) J P j Hj J1 Nd l l' vs r secs o secs' F N). Qed.
  Lemma import_simple : Forall simple l <-> Forall simple (BImport x file :: l').
  Proof. rewrite (shared_simple x file _ _ F). split; intros H; [constructor; [exact I|exact H]|now inversion H]. Qed.
  Lemma import_calls : Forall named_calls l <-> Forall named_calls (BImport x file :: l').
  Proof. rewrite (shared_calls x file _ _ F). split; intros H; [constructor; [exact I|exact H]|now inversion H]. Qed.
  Lemma fold_calls m : fold_right (fun b Q => named_calls b /\ Q) True m <-> Forall named_calls m.
  Proof. induction m as [|b m IH]; cbn [fold_right]; [split; constructor|]. rewrite IH. split; [intros [A B]; now constructor|intros H; inversion H; auto]. Qed.
  Ltac go := match goal with
    | K : SpecSite.prints _ _ _ l ([] :: ?sc) ?s ?o ?n ?s' |- _ => destruct (proj1 (first_import [] sc s o s' (fun X => X)) (ex_intro _ n K)) as [n' K']
    | K : SpecSite.prints _ _ _ (BImport x file :: l') ([] :: ?sc) ?s ?o ?n ?s' |- _ => destruct (proj2 (first_import [] sc s o s' (fun X => X)) (ex_intro _ n K)) as [n' K']
    end.
  Lemma import_section label : interchangeable [BSection label l] [BSection label (BImport x file :: l')].
  Proof.
    apply by_cases; [intros X; exact X|intros X; exact X| | |].
    - cbn [named_calls fold_right]. rewrite !fold_calls. rewrite (shared_calls x file _ _ F). tauto.
    - intros m sc secs o new secs' H. inversion H; subst; noshow. go. eapply pr_section; eassumption.
    - intros m sc secs o new secs' H. inversion H; subst; noshow. go. eapply pr_section; eassumption.
  Qed.
  Lemma import_repeats y vs sc : y <> x -> forall secs o secs', repeats (h_date h) J P l y vs sc secs o secs' <-> repeats (h_date h) J P (BImport x file :: l') y vs sc secs o secs'.
  Proof.
    intros N. assert (Ni : forall v : value, ~ In x (map fst [(y, v)])) by (intros v [E|[]]; contradiction).
    induction vs as [|v vs IH]; intros secs o secs'; split; intros H; inversion H; subst; try constructor.
    - match goal with K : SpecSite.prints _ _ _ l (?f :: ?sc) ?s ?o ?n ?s' |- _ => destruct (proj1 (first_import f sc s o s' (Ni v)) (ex_intro _ n K)) as [n' K'] end.
      econstructor; [exact K'|]. now apply IH.
    - match goal with K : SpecSite.prints _ _ _ (_ :: l') (?f :: ?sc) ?s ?o ?n ?s' |- _ => destruct (proj2 (first_import f sc s o s' (Ni v)) (ex_intro _ n K)) as [n' K'] end.
      econstructor; [exact K'|]. now apply IH.
  Qed.
  Lemma import_loop f : ff_var f <> x -> interchangeable [BFor f l] [BFor f (BImport x file :: l')].
  Proof.
    intros N. apply by_cases; [intros X; exact X|intros X; exact X|reflexivity| |]; intros m sc secs o new secs' H; inversion H; subst; noshow;
      (eapply pr_for; [eassumption|eassumption| |eassumption]); now apply import_repeats.
  Qed.
  Lemma import_if c : interchangeable [BIf c l] [BIf c (BImport x file :: l')].
  Proof.
    assert (A := import_simple). assert (B := import_calls).
    apply by_cases; [intros X; exact X|intros X; exact X|reflexivity| |]; intros m sc secs o new secs' H; inversion H; subst; noshow;
      try (go; eapply pr_if; [eassumption|tauto|eassumption|eassumption]); (eapply pr_skip; [eassumption|tauto|eassumption]).
  Qed.
  Lemma import_then c no : interchangeable [BIfElse c l no] [BIfElse c (BImport x file :: l') no].
  Proof.
    assert (A := import_simple). assert (B := import_calls).
    apply by_cases; [intros X; exact X|intros X; exact X|reflexivity| |]; intros m sc secs o new secs' H; inversion H; subst; noshow;
      try (go; eapply pr_then; [eassumption|tauto|eassumption|eassumption|eassumption]); (eapply pr_else; [eassumption|tauto|eassumption|eassumption|eassumption]).
  Qed.
  Lemma import_else c yes : interchangeable [BIfElse c yes l] [BIfElse c yes (BImport x file :: l')].
  Proof.
    assert (A := import_simple). assert (B := import_calls).
    apply by_cases; [intros X; exact X|intros X; exact X|reflexivity| |]; intros m sc secs o new secs' H; inversion H; subst; noshow;
      try (eapply pr_then; [eassumption|eassumption|tauto|eassumption|eassumption]); (go; eapply pr_else; [eassumption|eassumption|tauto|eassumption|eassumption]).
  Qed.
  Lemma import_branch c m : interchangeable [BIf c l] [BIf c (BImport x file :: l')] /\
    interchangeable [BIfElse c l m] [BIfElse c (BImport x file :: l') m] /\ interchangeable [BIfElse c m l] [BIfElse c m (BImport x file :: l')].
  Proof. split; [apply import_if|]. split; [apply import_then|apply import_else]. Qed.
  Lemma import_page : ~ In x (map fst vars) -> x <> lit "self" -> same_whole (h_date h) J P vars l (BImport x file :: l').
  Proof.
    intros N1 N2 vs secs o secs' V. apply first_import. destruct V as [->|[v ->]]; [exact N1|].
    rewrite map_app, in_app_iff. cbn [map fst In]. intros [A|[A|[]]]; [contradiction|]. now symmetry in A.
  Qed.
End Laws.

(** ** Sites *)
Lemma imported_swapped h ps vars content : ent_distinct content -> forall e name e', imported h ps vars content name e e' ->
  swapped h ps (h_date h) (site_json h content) (site_posts h ps vars content) vars name e e'.
Proof.
  intros D e. induction e as [b| |l IH] using ent_ind2; intros name e' H; inversion H as [| |? b1 b2 X R|? l1 l2 F]; subst.
  - constructor.
  - destruct R as (t & t' & x & file & j & l & l' & U & U' & W & W' & F & Hj & Nd & N1 & N2). apply sw_file; [exact X|].
    exists t, t', l, (BImport x file :: l'). repeat (split; [assumption|]). right. now apply import_page with (j := j).
  - constructor.
  - constructor. clear H. induction F as [|[k x] [k' x'] l l' [E H] F IHF]; [constructor|]. inversion IH as [|? ? A B]; subst. constructor; [|now apply IHF].
    cbn in *. subst k'. split; [reflexivity|]. now apply A.
Qed.
Lemma imported_site h ps vars content content' : ent_distinct content -> imported h ps vars content [] content content' -> swapped_site h ps vars content content'.
Proof. intros D I. now apply imported_swapped. Qed.

Lemma imported_builds h osenv mode d d' st content content' : sd_ent d = Some content -> sd_ent d' = Some content' ->
  plain_site h (st_plugins st) osenv mode content -> plain_site h (st_plugins st) osenv mode content' ->
  imported h (st_plugins st) (page_vars osenv mode) content [] content content' ->
  (snd (build h osenv mode d st) = Ok tt <-> snd (build h osenv mode d' st) = Ok tt).
Proof. intros E E' Pl Pl' I. eapply builds_same; eauto. apply imported_site; [exact (proj1 Pl)|exact I]. Qed.
Lemma imported_pages h osenv mode d d' st content content' out out' : sd_ent d = Some content -> sd_ent d' = Some content' ->
  ent_distinct content -> ent_distinct content' -> site_in_order h (st_plugins st) (page_vars osenv mode) content ->
  imported h (st_plugins st) (page_vars osenv mode) content [] content content' ->
  snd (build h osenv mode d st) = Ok tt /\ snd (build h osenv mode d' st) = Ok tt /\
  (st_output (fst (build h osenv mode d st)) = Some out -> st_output (fst (build h osenv mode d' st)) = Some out' ->
   forall ks name o, ~ is_template name ->
     ((exists pc m src, at_names out (ks ++ [name]) (NFile name o pc m src)) <-> (exists pc m src, at_names out' (ks ++ [name]) (NFile name o pc m src)))).
Proof. intros E E' D D' O I. eapply pages_same; eauto. now apply imported_site. Qed.
Lemma imported_project m c d d' content content' statics : cx_pre c = [] -> cx_post c = [] -> cf_meta (st_config (cx_stuart c)) = false ->
  project_ready c d content statics -> project_ready c d' content' statics -> ent_distinct content ->
  no_conflict (m_host m) (st_plugins (cx_stuart c)) (page_vars (m_osenv m) (cx_mode c)) content statics ->
  no_overlap (m_host m) (st_plugins (cx_stuart c)) (page_vars (m_osenv m) (cx_mode c)) content (st_config (cx_stuart c)) statics ->
  site_in_order (m_host m) (st_plugins (cx_stuart c)) (page_vars (m_osenv m) (cx_mode c)) content ->
  imported (m_host m) (st_plugins (cx_stuart c)) (page_vars (m_osenv m) (cx_mode c)) content [] content content' ->
  exists c1 d1 c2 d2, cli_build m no_faults c d = (c1, d1, COk) /\ cli_build m no_faults c d' = (c2, d2, COk) /\
    forall q o, what (output_dir c ++ q) d1 = KFile o <-> what (output_dir c ++ q) d2 = KFile o.
Proof. intros Pre Post Me R R' D Co Ov Or I. eapply project_same; eauto. now apply imported_site. Qed.
