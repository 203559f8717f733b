(** RelabelFacts.v -- renaming the sections of all templates (C108). *)

From Coq Require Import String List NArith ZArith Bool Lia ZifyBool ZifyNat ZifyN Permutation.
From Verif Require Import Text TextFacts Utf8 Json Base Syntax Parse Tree Interp Build Disk Cli Js.
From Verif Require JsFacts.
From Verif Require Import SpecScope SpecPage SpecRender SpecTemplate SpecLoop SpecBlocks SpecMarkdown SpecTree SpecUtf8 SpecDisk SpecProject SpecSite SpecExact SpecSwap SpecRelabel.
From Verif Require Import Utf8Facts ScopeFacts InterpFacts RenderFacts SelectFacts BlockFacts TextFnFacts LoopFacts MarkdownFacts
  TreeFacts PathFacts CliFacts GrammarFacts SiteFacts SiteDisk ExactFacts SwapFacts SwapLaws.
Import ListNotations.

(** ** Blocks *)
Lemma unseen_all l : fold_right (fun b Q => sections_unseen b /\ Q) True l <-> Forall sections_unseen l.
Proof.
  induction l as [|b l IH]; cbn [fold_right]; [split; [constructor|auto]|].
  split; [intros [A B]; constructor; [exact A|now apply IH]|intros F; inversion F; subst; split; [assumption|now apply IH]].
Qed.
Lemma map_same {A} (f g : A -> A) l : Forall (fun x => f (g x) = x) l -> map f (map g l) = l.
Proof. induction 1 as [|x l E _ IH]; cbn; [reflexivity|now rewrite E, IH]. Qed.
Lemma relabel_back rho rho' : (forall s, rho' (rho s) = s) -> forall b, relabel rho' (relabel rho b) = b.
Proof.
  intros U b. induction b as [b S|p|label body IH|f body IH|c yes IH|c yes no IH1 IH2] using block_ind2; cbn [relabel]; try (now rewrite ?U, ?map_same by assumption).
  - destruct b; cbn [relabel]; try destruct S; now rewrite ?U.
Qed.
Lemma relabel_list rho rho' : (forall s, rho' (rho s) = s) -> forall l, map (relabel rho') (map (relabel rho) l) = l.
Proof. intros U l. apply map_same, Forall_forall. intros b _. now apply relabel_back. Qed.
Lemma unseen_relabel rho b : sections_unseen b -> sections_unseen (relabel rho b).
Proof.
  assert (L : forall l, Forall (fun b => sections_unseen b -> sections_unseen (relabel rho b)) l -> Forall sections_unseen l -> Forall sections_unseen (map (relabel rho) l)).
  { induction 1 as [|x l X _ IH]; intros F; inversion F; subst; cbn; constructor; auto. }
  induction b as [b S|p|label body IH|f body IH|c yes IH|c yes no IH1 IH2] using block_ind2; cbn [relabel sections_unseen]; rewrite ?unseen_all; auto.
  - destruct b; cbn [relabel]; try destruct S; auto.
  - intros [A B]. split; auto.
Qed.
Lemma unseen_list rho l : Forall sections_unseen l -> Forall sections_unseen (map (relabel rho) l).
Proof. induction 1; cbn; constructor; auto. now apply unseen_relabel. Qed.
Lemma simple_list rho l : Forall simple l -> Forall simple (map (relabel rho) l).
Proof. induction 1 as [|b l S _ IH]; cbn [map]; constructor; auto. destruct b; auto. Qed.
Lemma named_relabel rho b : named_calls b -> named_calls (relabel rho b).
Proof.
  induction b as [b S|p|label body IH|f body IH|c yes IH|c yes no IH1 IH2] using block_ind2; cbn [relabel named_calls]; auto.
  - destruct b; cbn [relabel]; try destruct S; auto.
  - induction IH as [|x l X _ IH]; cbn [map fold_right]; auto. intros [A B]. split; auto.
Qed.
Lemma named_list rho l : Forall named_calls l -> Forall named_calls (map (relabel rho) l).
Proof. induction 1; cbn [map]; constructor; auto. now apply named_relabel. Qed.

Definition rename (rho : text -> text) (secs : sections) : sections := map (fun s => (rho (fst s), snd s)) secs.
Lemma rename_app rho a b : rename rho (a ++ b) = rename rho a ++ rename rho b.
Proof. apply map_app. Qed.
Lemma rename_first rho rho' : (forall s, rho' (rho s) = s) -> forall k secs b, first_binding k secs b -> first_binding (rho k) (rename rho secs) b.
Proof.
  intros U k secs b (l1 & l2 & -> & N). exists (rename rho l1), (rename rho l2). split; [now rewrite rename_app|].
  intros I. apply N. unfold rename in I. rewrite map_map in I. cbn in I. apply in_map_iff in I. destruct I as (x & E & I).
  apply (f_equal rho') in E. rewrite !U in E. rewrite <- E. now apply in_map.
Qed.
Section Printing.
  Variable date : option (text -> text -> option text).
  Variable J : text -> value -> Prop.
  Variable P : text -> list value -> Prop.
  Variable rho rho' : text -> text.
  Hypothesis U : forall s, rho' (rho s) = s.
  Local Notation prints := (SpecSite.prints date J P).
  Local Notation repeats := (SpecSite.repeats date J P).
  Local Notation shows := (SpecSite.shows date J).
  Local Notation rl := (map (relabel rho)).
  Local Notation rn := (rename rho).
  Lemma acts_one p beh beh' l vs r secs o new : acts p beh -> acts p beh' -> beh l (vs :: r) secs = Ok (o, new) -> beh' l (vs :: r) secs = Ok (o, new).
  Proof.
    intros A A' E. assert (M : forall r0, map fr_vars (map (fun v => Frame [] v []) r0) = r0) by (intros r0; induction r0 as [|x r0 IH]; cbn; [reflexivity|now rewrite IH]).
    specialize (A l (Scope 0 (map (fun v => Frame [] v []) (vs :: r)) secs) _ _ eq_refl). specialize (A' l (Scope 0 (map (fun v => Frame [] v []) (vs :: r)) secs) _ _ eq_refl).
    rewrite A in A'. cbn [sc_stack sc_secs sc_idx fr_name fr_vars fr_out] in A'. rewrite (M (vs :: r)), E in A'. destruct (beh' l (vs :: r) secs) as [[o' new']| | |]; try discriminate A'.
    injection A' as X Y. apply app_inv_head in X. cbn in Y. now subst.
  Qed.
  Lemma shows_relabel vs r secs b o new : sections_unseen b -> shows (vs :: r) secs b o new -> shows (vs :: r) (rn secs) (relabel rho b) o new.
  Proof.
    intros C K. inversion K; subst; cbn [relabel]; try (econstructor; solve [eassumption|reflexivity]).
    - constructor. eapply rename_first; eassumption.
    - destruct C as (beh' & A' & C). eapply sh_plugin; [exact A'|]. intros l. rewrite (C l _ (rn secs) secs). eapply acts_one; eauto.
  Qed.
  Lemma prints_relabel l sc secs o new secs' : prints l sc secs o new secs' -> Forall sections_unseen l -> prints (rl l) sc (rn secs) o new (rn secs').
  Proof.
    intros H. induction H using prints_mut with (P0 := fun body y vs sc secs o secs' => Forall sections_unseen body -> repeats (rl body) y vs sc (rn secs) o (rn secs'));
      intros F; cbn [map relabel]; try (inversion F as [|? ? F1 F2]; subst; cbn [sections_unseen] in F1; rewrite ?unseen_all in F1).
    all: try (constructor; fail).
    all: repeat match goal with I : Forall sections_unseen ?l -> _, K : Forall sections_unseen ?l |- _ => specialize (I K) end.
    - eapply pr_simple; [now apply shows_relabel|assumption].
    - eapply pr_section; [eassumption|]. match goal with I : prints _ _ (rn (_ ++ _)) _ _ _ |- _ => rewrite rename_app in I; exact I end.
    - eapply pr_for; eassumption.
    - eapply pr_if; try eassumption. now apply named_list.
    - eapply pr_skip; try eassumption. now apply simple_list.
    - destruct F1 as [F1 F3]. repeat match goal with I : Forall sections_unseen ?l -> _, K : Forall sections_unseen ?l |- _ => specialize (I K) end. eapply pr_then; try eassumption; [now apply named_list|now apply simple_list].
    - destruct F1 as [F1 F3]. repeat match goal with I : Forall sections_unseen ?l -> _, K : Forall sections_unseen ?l |- _ => specialize (I K) end. eapply pr_else; try eassumption; [now apply simple_list|now apply named_list].
    - eapply rp_cons; eassumption.
  Qed.
End Printing.

(** ** Sites *)
Section Transfer.
  Variable h : host.
  Variable ps : list plugin.
  Variable vars : list (text * value).
  Variable rho rho' : text -> text.
  Hypothesis U : undone rho rho'.
  Local Notation rl := (map (relabel rho)).
  Local Notation rt := (relabelled_text h ps rho).
  Local Notation re := (relabelled h ps rho).

  Lemma text_sym b b' : rt b b' -> relabelled_text h ps rho' b' b.
  Proof.
    destruct U as [U1 _]. intros (t & t' & l & B & B' & W & C & W'). exists t', t, (rl l). repeat split; auto; [now apply unseen_list|]. now rewrite relabel_list.
  Qed.
  Lemma relabelled_sym e : forall name e', re name e e' -> relabelled h ps rho' name e' e.
  Proof.
    induction e as [b| |l IH] using ent_ind2; intros name e' S; inversion S as [? ? N| |? ? b' X T|? ? l' F]; subst.
    - now constructor.
    - apply rb_file; [assumption|now apply text_sym].
    - constructor.
    - apply rb_dir. clear S. revert l' F. induction IH as [|[k x] l X _ IHl]; intros l' F; inversion F as [|? [k' x'] ? ? [E Y] F']; subst; constructor; auto. cbn in *. subst k'. split; auto.
  Qed.
  Lemma at_relabelled e ks x : ent_at e ks x -> forall name e', re name e e' -> exists x', ent_at e' ks x' /\ re (last ks name) x x'.
  Proof.
    induction 1 as [e|l k e ks x I A IH]; intros name e' S.
    - exists e'. split; [constructor|exact S].
    - inversion S as [| | |? ? l' F]; subst. destruct (Forall2_in_l _ _ _ _ F I) as ([k' e1] & I' & E & S'). cbn in E, S'. subst k'.
      destruct (IH _ _ S') as (x' & A' & X). exists x'. split; [econstructor; eassumption|]. destruct ks as [|k1 ks]; [exact X|].
      change (last (k :: k1 :: ks) name) with (last (k1 :: ks) name). rewrite (last_any _ (k1 :: ks) name k); [exact X|discriminate].
  Qed.
  Definition either name b b' := (~ has_ext name (lit "html") /\ b = b') \/ (has_ext name (lit "html") /\ rt b b').
  Lemma file_relabelled name b x : re name (EFile b) x -> exists b', x = EFile b' /\ either name b b'.
  Proof. inversion 1; subst; eexists; (split; [reflexivity|]); unfold either; auto. Qed.
  Lemma file_there e e' ks name b : re [] e e' -> ent_at e (ks ++ [name]) (EFile b) ->
    exists b', ent_at e' (ks ++ [name]) (EFile b') /\ either name b b'.
  Proof.
    intros S A. destruct (at_relabelled _ _ _ A _ _ S) as (x' & A' & X). rewrite last_last in X. apply file_relabelled in X. destruct X as (b' & -> & X). now exists b'.
  Qed.
  Lemma dir_there e e' ks l : re [] e e' -> ent_at e ks (EDir l) -> exists l', ent_at e' ks (EDir l') /\ Forall2 (fun x x' => fst x = fst x' /\ re (fst x) (snd x) (snd x')) l l'.
  Proof. intros S A. destruct (at_relabelled _ _ _ A _ _ S) as (x' & A' & X). inversion X; subst. eexists. split; eassumption. Qed.
  Lemma json_there e e' : re [] e e' -> forall f j, site_json h e f j -> site_json h e' f j.
  Proof.
    intros S f j (ks & name & b & t & Pt & A & X & Ut & Hj). destruct (file_there _ _ _ _ _ S A) as (b' & A' & [[_ <-]|[Y _]]); [|discriminate (has_ext_unique _ _ _ X Y)].
    exists ks, name, b, t. auto.
  Qed.
  Lemma post_there e e' : re [] e e' -> forall b v, post h ps vars e b v -> post h ps vars e' b v.
  Proof.
    intros S b v (t & fm & body & l & o & new & secs & out & l1 & l2 & Ut & M & W & Pr & R). exists t, fm, body, l, o, new, secs, out, l1, l2.
    split; [exact Ut|]. split; [exact M|]. split; [exact W|]. split; [|exact R]. eapply prints_mono; [|intros d vs X; exact X|exact Pr]. now apply json_there.
  Qed.
  Lemma entries_there e e' : re [] e e' -> forall l vs, entry_posts h ps vars e l vs -> forall l', Forall2 (fun x x' => fst x = fst x' /\ re (fst x) (snd x) (snd x')) l l' ->
    entry_posts h ps vars e' l' vs.
  Proof.
    intros S. induction 1 as [|name b v l vs X Po En IH|name x l vs N En IH]; intros l' F; inversion F as [|? [k' x'] ? l2 [E X'] F']; subst.
    - constructor.
    - cbn in E, X'. subst k'. apply file_relabelled in X'. destruct X' as (b' & -> & [[_ <-]|[Y _]]); [|discriminate (has_ext_unique _ _ _ X Y)]. apply ep_post; [exact X|eapply post_there; eassumption|now apply IH].
    - cbn in E, X'. subst k'. apply ep_other; [|now apply IH]. intros (Y & b' & ->). apply N. split; [exact Y|]. inversion X'; subst; eauto.
  Qed.
  Lemma posts_there e e' : re [] e e' -> forall d vs, site_posts h ps vars e d vs -> site_posts h ps vars e' d vs.
  Proof.
    intros S d vs (ks & l & Pt & A & En). destruct (dir_there _ _ _ _ S A) as (l' & A' & F). exists ks, l'. split; [exact Pt|]. split; [exact A'|]. eapply entries_there; eassumption.
  Qed.
End Transfer.
Section Pages.
  Variable h : host.
  Variable ps : list plugin.
  Variable vars : list (text * value).
  Variable rho rho' : text -> text.
  Hypothesis U : undone rho rho'.
  Variable e e' : ent.
  Hypothesis S : relabelled h ps rho [] e e'.
  Let S' : relabelled h ps rho' [] e' e := relabelled_sym _ _ _ _ U _ _ _ S.
  Local Notation rl := (map (relabel rho)).
  Local Notation rn := (rename rho).

  Lemma says_there l vs secs o secs' : Forall sections_unseen l -> says h ps vars e l vs secs o secs' -> says h ps vars e' (rl l) vs (rn secs) o (rn secs').
  Proof.
    intros C [new Pr]. exists new. eapply prints_mono; [exact (json_there _ _ _ _ _ S)|exact (posts_there _ _ _ _ _ _ S)|].
    exact (prints_relabel _ _ _ _ rho' (proj1 U) _ _ _ _ _ _ Pr C).
  Qed.
  Lemma template_ext name : is_template name -> has_ext name (lit "html").
  Proof. intros [->| ->]; [exists (lit "root")|exists (lit "md")]; repeat split; try discriminate; vm_compute; intuition discriminate. Qed.
  Lemma template_there name ks l : is_template name -> template_at h ps e name ks l -> template_at h ps e' name ks (rl l) /\ Forall sections_unseen l.
  Proof.
    intros It (ks1 & ks2 & b & t & -> & A & N & Ut & W). destruct (file_there _ _ _ _ _ _ _ _ S A) as (b' & A' & T).
    assert (N' : forall a c x, ks2 = a ++ c -> a <> [] -> ~ ent_at e' (ks1 ++ a ++ [name]) x).
    { intros a c x E Ne X. destruct (at_relabelled _ _ _ _ _ _ X _ _ S') as (x' & X' & _). now apply (N a c x'). }
    destruct T as [[Y _]|(Y & t1 & t' & l1 & U1 & U' & W1 & C & W')]; [destruct (Y (template_ext _ It))|].
    assert (t1 = t) as -> by (eapply utf8_text_fun; eassumption). assert (l1 = l) as -> by (eapply written_one; eassumption).
    split; [|exact C]. exists ks1, ks2, b', t'. auto.
  Qed.
  Lemma page_there ks name b b' name' o : either h ps rho name b b' -> ~ is_template name ->
    page_of_file h ps vars e ks name b name' o -> page_of_file h ps vars e' ks name b' name' o.
  Proof.
    intros T Nt Pg. inversion Pg as [? ? t page root o1 secs ? secs' X N Ut W Tr S1 S2|stem ? v page root o1 secs ? secs' Ns Po Tp Tr S1 S2|? ? C]; subst.
    - destruct (template_there _ _ _ (or_introl eq_refl) Tr) as (Tr' & Cr). destruct T as [[Y _]|(_ & t1 & t' & l1 & U1 & U' & W1 & C & W')]; [contradiction|].
      assert (t1 = t) as -> by (eapply utf8_text_fun; eassumption). assert (l1 = page) as -> by (eapply written_one; eassumption).
      eapply pf_html; try eassumption; [exact (says_there _ _ _ _ _ C S1)|exact (says_there _ _ _ _ _ Cr S2)].
    - assert (X : has_ext (stem ++ lit ".md") (lit "md")) by (exists stem; repeat split; [exact Ns|vm_compute; intuition discriminate]).
      destruct T as [[_ <-]|(Y & _)]; [|discriminate (has_ext_unique _ _ _ X Y)].
      destruct (template_there _ _ _ (or_introl eq_refl) Tr) as (Tr' & Cr). destruct (template_there _ _ _ (or_intror eq_refl) Tp) as (Tp' & Cp).
      eapply pf_md; try eassumption; [eapply post_there; eassumption|exact (says_there _ _ _ _ _ Cp S1)|exact (says_there _ _ _ _ _ Cr S2)].
    - destruct T as [[Y <-]|(Y & _)]; [now apply pf_copy|]. destruct C as [C|[C|(C & _)]]; [contradiction|discriminate (has_ext_unique _ _ _ C Y)|contradiction].
  Qed.
  Lemma template_dec name : is_template name \/ ~ is_template name.
  Proof. unfold is_template. destruct (CliFacts.text_eqb_spec name (lit "root.html")) as [->|N1]; [auto|]. destruct (CliFacts.text_eqb_spec name (lit "md.html")) as [->|N2]; [auto|tauto]. Qed.
  Lemma published_there ks name o : ~ is_template name -> published h ps vars e ks name o -> published h ps vars e' ks name o.
  Proof.
    intros Nt (src & b & A & Pg). destruct (file_there _ _ _ _ _ _ _ _ S A) as (b' & A' & T). exists src, b'. split; [exact A'|]. eapply page_there; [exact T| |exact Pg].
    inversion Pg; subst; auto. intros [X|X]; apply (f_equal (@rev _)) in X; rewrite rev_app_distr in X; discriminate X.
  Qed.
  Lemma published_any ks name o : published h ps vars e ks name o -> exists o', published h ps vars e' ks name o'.
  Proof.
    intros (src & b & A & Pg). destruct (file_there _ _ _ _ _ _ _ _ S A) as (b' & A' & T). destruct (template_dec src) as [D|D].
    - assert (name = src) as -> by (inversion Pg; subst; try contradiction; auto; destruct D as [X|X]; apply (f_equal (@rev _)) in X; rewrite rev_app_distr in X; discriminate X).
      exists b', src, b'. split; [exact A'|]. apply pf_copy. now left.
    - exists o, src, b'. split; [exact A'|]. eapply page_there; eassumption.
  Qed.
  Lemma order_there : site_in_order h ps vars e -> site_in_order h ps vars e'.
  Proof.
    intros ([l E] & No & F). split; [|split].
    - destruct (dir_there _ _ _ e e' [] l S) as (l' & A & _); [rewrite E; constructor|]. inversion A; subst. now exists l'.
    - intros ks A. destruct (at_relabelled _ _ _ _ _ _ A _ _ S') as (x & A' & X). inversion X; subst. now apply No in A'.
    - intros ks name b' A1. destruct (file_there _ _ _ _ _ _ _ _ S' A1) as (b & A & T'). destruct (F _ _ _ A) as ((name' & o & Pg) & Tm & Js).
      assert (T : either h ps rho name b b').
      { destruct T' as [[Y ->]|[Y R]]; [now left|right; split; [exact Y|]]. exact (text_sym _ _ rho' rho (conj (proj2 U) (proj1 U)) _ _ R). }
      split; [|split].
      + destruct (template_dec name) as [D|D]; [exists name, b'; now apply pf_copy; left|]. exists name', o. eapply page_there; eassumption.
      + intros It. destruct T as [[_ <-]|(_ & t & t' & l1 & _ & U' & _ & _ & W')]; [now apply Tm|eauto].
      + intros X. destruct T as [[_ <-]|(Y & _)]; [now apply Js|discriminate (has_ext_unique _ _ _ X Y)].
  Qed.
End Pages.
Lemma undone_sym rho rho' : undone rho rho' -> undone rho' rho.
Proof. intros [A B]. now split. Qed.
Section Sites.
  Variable h : host.
  Variable ps : list plugin.
  Variable vars : list (text * value).
  Variable rho rho' : text -> text.
  Hypothesis U : undone rho rho'.
  Variable e e' : ent.
  Hypothesis S : relabelled h ps rho [] e e'.
  Let U' := undone_sym _ _ U.
  Let S' : relabelled h ps rho' [] e' e := relabelled_sym _ _ _ _ U _ _ _ S.
  Lemma order_relabelled : site_in_order h ps vars e <-> site_in_order h ps vars e'.
  Proof. split; [exact (order_there _ _ _ _ _ U _ _ S)|exact (order_there _ _ _ _ _ U' _ _ S')]. Qed.
  Lemma published_relabelled ks name o : ~ is_template name -> published h ps vars e ks name o <-> published h ps vars e' ks name o.
  Proof. intros N. split; [exact (published_there _ _ _ _ _ U _ _ S _ _ _ N)|exact (published_there _ _ _ _ _ U' _ _ S' _ _ _ N)]. Qed.
  Lemma published_undone ks name o : published h ps vars e' ks name o -> exists o', published h ps vars e ks name o'.
  Proof. exact (published_any _ _ _ _ _ U' _ _ S' _ _ _). Qed.
  Variable cf : config.
  Variable statics : ent.
  Lemma file_relabelled_same q o : SpecSite.file_at h ps vars e cf statics q o <-> SpecSite.file_at h ps vars e' cf statics q o.
  Proof.
    unfold SpecSite.file_at. assert (X : page_at h ps vars e cf q o <-> page_at h ps vars e' cf q o); [|tauto].
    split; intros (ks & name & Pu & Hi & Sa); exists ks, name; (split; [|now split]); (apply published_relabelled || apply published_relabelled in Pu); auto; intros T; apply Hi; now left.
  Qed.
  Lemma folder_relabelled q : folder_at h ps vars e' cf statics q -> folder_at h ps vars e cf statics q.
  Proof.
    intros [[[l A]|(ks & name & o & stem & Pu & Hi & St & E)]|X].
    - destruct (dir_there _ _ _ _ _ _ _ S' A) as (l' & A' & _). left. left. now exists l'.
    - left. right. exists ks, name, o, stem. split; [|auto]. apply published_relabelled; [|exact Pu]. intros T. apply Hi. now left.
    - now right.
  Qed.
End Sites.
Lemma builds_relabelled h osenv mode d d' st content content' rho rho' : sd_ent d = Some content -> sd_ent d' = Some content' ->
  plain_site h (st_plugins st) osenv mode content -> plain_site h (st_plugins st) osenv mode content' ->
  undone rho rho' -> relabelled h (st_plugins st) rho [] content content' ->
  (snd (build h osenv mode d st) = Ok tt <-> snd (build h osenv mode d' st) = Ok tt).
Proof.
  intros E E' Pl Pl' U S. rewrite (build_exactly _ _ _ _ _ _ E Pl), (build_exactly _ _ _ _ _ _ E' Pl'). exact (order_relabelled _ _ _ _ _ U _ _ S).
Qed.
Lemma pages_relabelled h osenv mode d d' st content content' out out' rho rho' : sd_ent d = Some content -> sd_ent d' = Some content' ->
  ent_distinct content -> ent_distinct content' -> site_in_order h (st_plugins st) (page_vars osenv mode) content ->
  undone rho rho' -> relabelled h (st_plugins st) rho [] content content' ->
  snd (build h osenv mode d st) = Ok tt /\ snd (build h osenv mode d' st) = Ok tt /\
  (st_output (fst (build h osenv mode d st)) = Some out -> st_output (fst (build h osenv mode d' st)) = Some out' ->
   forall ks name o, ~ is_template name ->
     ((exists pc m src, at_names out (ks ++ [name]) (NFile name o pc m src)) <-> (exists pc m src, at_names out' (ks ++ [name]) (NFile name o pc m src)))).
Proof.
  intros E E' D D' O U S. assert (O' := proj1 (order_relabelled _ _ _ _ _ U _ _ S) O).
  assert (B := site_builds _ _ _ _ _ _ E D O). assert (B' := site_builds _ _ _ _ _ _ E' D' O').
  split; [exact B|]. split; [exact B'|]. intros Eo Eo' ks name o N.
  rewrite (site_files _ _ _ _ _ _ _ B Eo E D O), (site_files _ _ _ _ _ _ _ B' Eo' E' D' O'). exact (published_relabelled _ _ _ _ _ U _ _ S _ _ _ N).
Qed.
Lemma project_relabelled m c d d' content content' statics rho rho' : cx_pre c = [] -> cx_post c = [] -> cf_meta (st_config (cx_stuart c)) = false ->
  project_ready c d content statics -> project_ready c d' content' statics ->
  no_conflict (m_host m) (st_plugins (cx_stuart c)) (page_vars (m_osenv m) (cx_mode c)) content statics ->
  no_overlap (m_host m) (st_plugins (cx_stuart c)) (page_vars (m_osenv m) (cx_mode c)) content (st_config (cx_stuart c)) statics ->
  site_in_order (m_host m) (st_plugins (cx_stuart c)) (page_vars (m_osenv m) (cx_mode c)) content ->
  undone rho rho' -> relabelled (m_host m) (st_plugins (cx_stuart c)) rho [] content content' ->
  exists c1 d1 c2 d2, cli_build m no_faults c d = (c1, d1, COk) /\ cli_build m no_faults c d' = (c2, d2, COk) /\
    forall q o, what (output_dir c ++ q) d1 = KFile o <-> what (output_dir c ++ q) d2 = KFile o.
Proof.
  intros Pre Post Me (L1 & St1 & T1 & D1 & I1 & So & O1 & Pa1 & Wo1) (L2 & St2 & T2 & D2 & I2 & _ & _ & Pa2 & Wo2) [C1 C2] [Ov1 Ov2] Or U S.
  destruct (project_built m c d content statics) as (c1 & d1 & B1 & F1); auto; [split; assumption|split; assumption|].
  destruct (project_built m c d' content' statics) as (c2 & d2 & B2 & F2); auto.
  - exact (proj1 (order_relabelled _ _ _ _ _ U _ _ S) Or).
  - split.
    + intros ks name x o A Pu. destruct (published_undone _ _ _ _ _ U _ _ S _ _ _ Pu) as [o' Pu']. exact (C1 _ _ _ _ A Pu').
    + intros ks b l A A'. destruct (dir_there _ _ _ _ _ _ _ (relabelled_sym _ _ _ _ U _ _ _ S) A') as (l' & X & _). exact (C2 _ _ _ A X).
  - split.
    + intros q o o' A A'. apply (proj2 (file_relabelled_same _ _ _ _ _ U _ _ S _ _ _ _)) in A, A'. exact (Ov1 _ _ _ A A').
    + intros q o A Fo. apply (proj2 (file_relabelled_same _ _ _ _ _ U _ _ S _ _ _ _)) in A. apply (folder_relabelled _ _ _ _ _ U _ _ S) in Fo. exact (Ov2 _ _ A Fo).
  - exists c1, d1, c2, d2. split; [exact B1|]. split; [exact B2|]. intros q o. rewrite F1, F2. exact (file_relabelled_same _ _ _ _ _ U _ _ S _ _ _ _).
Qed.
(** JavaScript functions do not see the sections. *)
Lemma js_unseen name code r p : pp_parse (js_plugin_parser name code) r = inr p -> sections_unseen (BPlugin p).
Proof. intros E. injection E as <-. exists (JsFacts.js_beh code (rf_pos r)). split; [apply JsFacts.js_acts|reflexivity]. Qed.
