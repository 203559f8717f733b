(** MoveImport.v -- imports may be moved (C91). *)

From Coq Require Import String List NArith ZArith Bool Lia.
From Verif Require Import Text TextFacts Utf8 Json Base Syntax Parse Tree Interp Build Disk Cli.
From Verif Require Import SpecScope SpecRender SpecTemplate SpecLoop SpecBlocks SpecTree SpecSite SpecExact SpecSwap SpecShare SpecJoinIf SpecMoveImport.
From Verif Require Import ScopeFacts SiteFacts ExactFacts SwapFacts SwapLaws ShareFacts JoinIfFacts.
Import ListNotations.

(** No loop is over a file and over a variable, so that the file does not matter. *)
Lemma any_file x g file b : shared x g b b -> shared x file b b.
Proof.
  assert (A : forall l, Forall (fun b => shared x g b b -> shared x file b b) l -> Forall2 (shared x g) l l -> Forall2 (shared x file) l l).
  { intros l H. induction H as [|b0 l Hb _ IH]; intros F; inversion F; subst; constructor; auto. }
  induction b as [b S|p|label l IH|f l IH|c yes IH|c yes no IH1 IH2] using block_ind2; intros Sh; inversion Sh; subst; try (constructor; auto; fail); try contradiction.
  match goal with E : ff_type (over_variable _ _) = SrcJson |- _ => discriminate E end.
Qed.

Section Move.
  Variable h : host.
  Variable J : text -> value -> Prop.
  Variable P : text -> list value -> Prop.
  Variable x file : text.
  Hypothesis J1 : forall j j', J file j -> J file j' -> j = j'.
  Hypothesis Nd : ~ In c_dot x.
  Local Notation prints := (prints (h_date h) J P).
  Local Notation interchangeable := (interchangeable (h_date h) J P).
  Variable l : list block.
  Hypothesis W : Forall (without x) l.

  Lemma unbinding : Forall binds_nothing l.
  Proof. eapply Forall_impl; [|exact W]. intros b H. apply H. Qed.
  Lemma itself : Forall2 (shared x file) l l.
  Proof. clear -W. induction W as [|b m Wb Wm IH]; [constructor|]. constructor; [exact (any_file _ _ _ _ (proj2 Wb))|exact (IH Wm)]. Qed.
  Lemma move_import : interchangeable (BImport x file :: l) (l ++ [BImport x file]).
  Proof.
    split; [rewrite Forall_app; split; [intros X; inversion X; subst; split; [assumption|repeat constructor]|intros [X _]; constructor; [exact I|exact X]]|].
    split; [rewrite Forall_app; split; [intros X; inversion X; subst; split; [assumption|repeat constructor]|intros [X _]; constructor; [exact I|exact X]]|].
    assert (Hb : forall j vs r, but_for x (vs :: r) ((vs ++ [(x, j)]) :: r)).
    { intros j vs r. constructor; [|apply but_refl]. unfold rest_of. rewrite filter_app. cbn [filter fst]. rewrite text_eqb_refl. cbn [negb]. now rewrite app_nil_r. }
    assert (B : forall j vs r, ~ In x (map fst vs) -> bound x ((vs ++ [(x, j)]) :: r) j).
    { intros j vs r N. exists [], (vs ++ [(x, j)]), r. split; [reflexivity|]. split; [|constructor]. exists vs, []. now split. }
    intros sc secs o new secs'. split; intros H.
    - inversion H; subst. match goal with S : shows _ _ _ _ _ _ _ |- _ => inversion S; subst end.
      match goal with E : _ :: _ = _ :: _ |- _ => injection E as <- <- end.
      match goal with K : SpecSite.prints _ _ _ l _ _ _ _ _ |- _ => rename K into K0 end.
      assert (n0 : new' = []) by (eapply nothing_bound; [exact unbinding|exact K0]). subst new'.
      eapply prints_shared with (j := j) (l := l) (sc := vs :: r) in K0; [|eassumption|intros; now apply J1|exact Nd|exact itself|apply but_sym, Hb|now apply B].
      replace ([] ++ o') with (o' ++ []) by now rewrite app_nil_r. change ([(x, j)] ++ []) with ([] ++ [(x, j)]). eapply app_join; [exact K0|]. cbn [bind_vars]. rewrite app_nil_r.
      change [(x, j)] with ([(x, j)] ++ []). change (@nil N) with (@nil N ++ []). eapply pr_simple; [|constructor]. eapply sh_import; [reflexivity|assumption|assumption].
    - apply app_cut in H. destruct H as (o1 & n1 & s1 & o2 & n2 & A & C & -> & ->). assert (n1 = []) as -> by (eapply nothing_bound; [exact unbinding|exact A]).
      rewrite bind_nil in C. inversion C; subst. match goal with S : shows _ _ _ _ _ _ _ |- _ => inversion S; subst end.
      match goal with E : _ :: _ = _ :: _ |- _ => injection E as <- <- end.
      match goal with K : SpecSite.prints _ _ _ [] _ _ _ _ _ |- _ => inversion K; subst end.
      cbn [app]. rewrite app_nil_r. change o1 with ([] ++ o1). change [(x, j)] with ([(x, j)] ++ []). eapply pr_simple; [eapply sh_import; [reflexivity|assumption|assumption]|].
      eapply shared_prints with (j := j); [eassumption|intros; now apply J1|exact Nd|exact A|exact itself|apply Hb|now apply B].
  Qed.
End Move.
Lemma site_move_import h ps vars content x file l : ent_distinct content -> ~ In c_dot x -> Forall (without x) l ->
  interchangeable (h_date h) (site_json h content) (site_posts h ps vars content) (BImport x file :: l) (l ++ [BImport x file]).
Proof. intros D N W. apply move_import; [|exact N|exact W]. intros j j'. apply site_json_one. exact D. Qed.
