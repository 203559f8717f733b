(** MergeFacts.v -- the union of any two trees (C38, C41). *)

From Coq Require Import String List NArith ZArith Bool Lia.
From Verif Require Import Text Utf8 Json Base Syntax Parse Tree Interp Build SpecScope SpecPage SpecTree.
From Verif Require Import TextFacts InterpFacts ScopeFacts TreeFacts PathFacts.
Import ListNotations.

Lemma same_node_trans x y z : same_node x y -> same_node y z -> same_node x z.
Proof. destruct x, y, z; cbn; try tauto. intros (-> & -> & -> & -> & ->). tauto. Qed.
Lemma same_node_sym x y : same_node x y -> same_node y x.
Proof. destruct x, y; cbn; try tauto. intros (-> & -> & -> & -> & ->). tauto. Qed.

(** Everything of [a] is in [c]. *)
Definition kept (a c : node) : Prop := forall p x, at_names a p x -> exists y, at_names c p y /\ same_node y x.
Lemma kept_refl a : kept a a.
Proof. intros p x H. exists x. split; [exact H|apply same_node_refl]. Qed.
Lemma kept_trans a b c : kept a b -> kept b c -> kept a c.
Proof.
  intros H K p x A. destruct (H p x A) as (y & B & E). destruct (K p y B) as (z & C & F). exists z. split; [exact C|]. now apply (same_node_trans _ y).
Qed.
Definition kept_in (c : node) (l : list node) : Prop := exists c', In c' l /\ n_name c' = n_name c /\ kept c c'.
Lemma kept_dirs n ch s n' ch' s' : Forall (fun c => kept_in c ch') ch -> kept (NDir n ch s) (NDir n' ch' s').
Proof.
  intros F p x A. inversion A as [|? ? ? c ks ? I A']; subst.
  - eexists. split; [apply an_here|exact I].
  - rewrite Forall_forall in F. destruct (F c I) as (c' & I' & E & K). destruct (K ks x A') as (y & B & S). exists y. split; [|exact S].
    rewrite <- E. now apply an_child.
Qed.

(** Everything of [c] is from a node of the list with the same name. *)
Definition from (l : list node) (c : node) : Prop := forall p x, at_names c p x ->
  exists c0 y, In c0 l /\ n_name c0 = n_name c /\ at_names c0 p y /\ same_node x y.
Lemma from_self l c : In c l -> from l c.
Proof. intros I p x A. exists c, x. repeat split; try assumption. apply same_node_refl. Qed.

Definition merge_good (b : node) : Prop := forall a c, merge a b = (c, Done) ->
  kept a c /\ kept b c /\ (forall p x, at_names c p x -> exists y, (at_names a p y \/ at_names b p y) /\ same_node x y).

Lemma child_step_done oc c c' : merge_good oc -> child_step oc c = (c', Done) -> n_name c = n_name oc ->
  kept c c' /\ kept oc c' /\ n_name c' = n_name oc /\ (forall p x, at_names c' p x -> exists y, (at_names c p y \/ at_names oc p y) /\ same_node x y).
Proof.
  intros G E N. pose proof (child_step_name oc c) as CN. rewrite E in CN. cbn in CN. unfold child_step in E.
  destruct (is_dir c && is_dir oc); [|discriminate]. destruct (G _ _ E) as (A & B & C). repeat split; try assumption. congruence.
Qed.
Lemma update_first_good oc ch : merge_good oc -> forall ch', update_first oc (child_step oc) ch = (ch', Done) ->
  Forall (fun c => kept_in c ch') ch /\ kept_in oc ch' /\ (forall l, Forall (from l) ch -> In oc l -> Forall (from l) ch').
Proof.
  intros G. induction ch as [|c ch IH]; intros ch' E; cbn in E.
  - injection E as <-. split; [constructor|]. split; [exists oc; split; [now left|]; split; [reflexivity|apply kept_refl]|].
    intros l _ I. constructor; [now apply from_self|constructor].
  - destruct (text_eqb (n_name c) (n_name oc)) eqn:X.
    + apply text_eqb_eq in X. destruct (child_step oc c) as [c' o] eqn:S. injection E as <- ->.
      destruct (child_step_done _ _ _ G S X) as (A & B & N & F). split; [|split].
      * constructor; [exists c'; split; [now left|]; split; [congruence|exact A]|]. apply Forall_forall. intros d I.
        exists d. split; [now right|]. split; [reflexivity|apply kept_refl].
      * exists c'. split; [now left|]. now split.
      * intros l FL I. inversion FL as [|? ? F1 F2]; subst. constructor; [|exact F2]. intros p x A'.
        destruct (F p x A') as (y & [K|K] & SN).
        -- destruct (F1 p y K) as (c0 & z & I0 & N0 & A0 & S0). exists c0, z. repeat split; try assumption; [congruence|]. now apply (same_node_trans _ y).
        -- exists oc, y. repeat split; try assumption. congruence.
    + fold (update_first oc (child_step oc)) in E. destruct (update_first oc (child_step oc) ch) as [r o] eqn:U. injection E as <- ->.
      destruct (IH _ eq_refl) as (A & (c' & I' & K') & F). split; [|split].
      * constructor; [exists c; split; [now left|]; split; [reflexivity|apply kept_refl]|].
        apply (Forall_impl _ (fun d H => match H with ex_intro _ e (conj I1 H1) => ex_intro _ e (conj (or_intror I1) H1) end) A).
      * exists c'. split; [now right|exact K'].
      * intros l FL I. inversion FL; subst. constructor; [assumption|]. now apply F.
Qed.
Lemma kept_in_trans l l' c : Forall (fun c => kept_in c l') l -> kept_in c l -> kept_in c l'.
Proof.
  intros F (c' & I & N & K). rewrite Forall_forall in F. destruct (F c' I) as (c'' & I' & N' & K'). exists c''. split; [exact I'|].
  split; [congruence|]. now apply (kept_trans _ c').
Qed.
Lemma merge_list_good och : Forall merge_good och -> forall ch ch', merge_list ch och = (ch', Done) ->
  Forall (fun c => kept_in c ch') ch /\ Forall (fun c => kept_in c ch') och /\
  (forall l, Forall (from l) ch -> incl och l -> Forall (from l) ch').
Proof.
  induction 1 as [|oc och G GO IH]; intros ch ch' E; cbn [merge_list] in E.
  - injection E as <-. split; [|split; [constructor|intros l F _; exact F]]. apply Forall_forall. intros d I. exists d. split; [exact I|]. split; [reflexivity|apply kept_refl].
  - destruct (update_first oc (child_step oc) ch) as [r o] eqn:U. destruct o; try discriminate.
    destruct (update_first_good _ _ G _ U) as (A & B & F). destruct (IH _ _ E) as (A' & B' & F'). split; [|split].
    + apply (Forall_impl _ (fun c H => kept_in_trans _ _ c A' H) A).
    + constructor; [now apply (kept_in_trans _ _ _ A')|exact B'].
    + intros l FL I. apply F'; [|now intros x X; apply I; right]. apply F; [exact FL|]. apply I. now left.
Qed.
Lemma merge_all_good b : merge_good b.
Proof.
  induction b as [name b p meta src|name och src IH] using node_ind2; intros a c E.
  - destruct a; discriminate.
  - destruct a as [|n ch s]; [discriminate|]. rewrite merge_dirs_eq in E. destruct (merge_list ch och) as [ch' o] eqn:M. injection E as <- ->.
    destruct (merge_list_good _ IH _ _ M) as (A & B & F). split; [now apply kept_dirs|]. split; [now apply kept_dirs|].
    intros p x H. inversion H as [|? ? ? d ks ? I H']; subst.
    + exists (NDir n ch s). split; [left; constructor|exact Logic.I].
    + assert (FL : Forall (from (ch ++ och)) ch').
      { apply F; [|now apply incl_appr]. apply Forall_forall. intros e Ie. apply from_self. apply in_app_iff. now left. }
      rewrite Forall_forall in FL. destruct (FL d I ks x H') as (c0 & y & I0 & N0 & A0 & S0). exists y. split; [|exact S0].
      rewrite <- N0. apply in_app_iff in I0. destruct I0; [left|right]; now apply an_child.
Qed.
Lemma merge_any_union a b c : merge a b = (c, Done) ->
  (forall p x, at_names c p x -> exists y, (at_names a p y \/ at_names b p y) /\ same_node x y) /\
  (forall p y, at_names a p y \/ at_names b p y -> exists x, at_names c p x /\ same_node x y).
Proof.
  intros M. destruct (merge_all_good b a c M) as (A & B & F). split; [exact F|]. intros p y [H|H]; [now apply A|now apply B].
Qed.

(** A merge that fails names a conflict, whatever tree is merged into. *)
Lemma update_first_other oc ch ch' o : update_first oc (child_step oc) ch = (ch', o) ->
  forall x, n_name x <> n_name oc -> In x ch' -> In x ch.
Proof.
  revert ch'. induction ch as [|c ch IH]; intros ch' E x NE I; cbn in E.
  - injection E as <- _. destruct I as [<-|[]]. contradiction.
  - destruct (text_eqb (n_name c) (n_name oc)) eqn:X.
    + apply text_eqb_eq in X. pose proof (child_step_name oc c) as CN. destruct (child_step oc c) as [c' o']. injection E as <- _. cbn in CN.
      destruct I as [<-|I]; [congruence|now right].
    + fold (update_first oc (child_step oc)) in E. destruct (update_first oc (child_step oc) ch) as [r o']. injection E as <- ->.
      destruct I as [<-|I]; [now left|]. right. now apply (IH r eq_refl).
Qed.
Lemma update_first_fails oc ch ch' o : update_first oc (child_step oc) ch = (ch', o) -> o <> Done ->
  exists c, In c ch /\ n_name c = n_name oc /\ o = snd (child_step oc c).
Proof.
  revert ch'. induction ch as [|c ch IH]; intros ch' E NE; cbn in E.
  - now injection E as _ <-.
  - destruct (text_eqb (n_name c) (n_name oc)) eqn:X.
    + apply text_eqb_eq in X. destruct (child_step oc c) as [c' o'] eqn:S. injection E as _ <-. exists c. rewrite S. repeat split; [now left|exact X].
    + fold (update_first oc (child_step oc)) in E. destruct (update_first oc (child_step oc) ch) as [r o']. injection E as _ <-.
      destruct (IH r eq_refl NE) as (d & I & N & S). exists d. repeat split; try assumption. now right.
Qed.
Lemma merge_list_fails och : forall ch ch' o, NoDup (map n_name och) -> merge_list ch och = (ch', o) -> o <> Done ->
  exists x y, In x ch /\ In y och /\ n_name x = n_name y /\ o = snd (child_step y x).
Proof.
  induction och as [|oc och IH]; intros ch ch' o NO E NE; cbn [merge_list] in E.
  - now injection E as _ <-.
  - inversion NO as [|? ? NI NO']; subst. destruct (update_first oc (child_step oc) ch) as [r o'] eqn:U.
    assert (Cs : (o' = Done /\ merge_list r och = (ch', o)) \/ (o' <> Done /\ o = o')).
    { destruct o'; [left; now split|right|right]; injection E as _ <-; now split. }
    destruct Cs as [[-> E']|[NE' ->]].
    + destruct (IH _ _ _ NO' E' NE) as (x & y & Ix & Iy & NN & O). exists x, y. repeat split; try assumption; [|now right].
      apply (update_first_other _ _ _ _ U); [|exact Ix]. rewrite NN. intros Q. apply NI. rewrite <- Q. now apply in_map.
    + destruct (update_first_fails _ _ _ _ U NE') as (c & I & N & S). exists c, oc. repeat split; try assumption. now left.
Qed.
Lemma merge_any_failed b : forall a, distinct b -> is_dir a = true -> is_dir b = true -> snd (merge a b) <> Done ->
  exists p x y, conflict a b p x y /\ snd (merge a b) = Failed (E_Fs (FE_Conflict (n_source x) (n_source y))).
Proof.
  induction b as [|name och src IH] using node_ind2; [discriminate|]. intros a Db A _ ND.
  destruct a as [|n ch s]; [discriminate|]. rewrite merge_dirs_eq in *.
  destruct (merge_list ch och) as [ch' o] eqn:M. cbn [snd] in *. inversion Db as [|? ? ? NB FB]; subst.
  destruct (merge_list_fails _ _ _ _ NB M ND) as (x & y & Ix & Iy & NN & ->). unfold child_step in *.
  rewrite Forall_forall in IH, FB. destruct (is_dir x) eqn:X, (is_dir y) eqn:Y; cbn [andb snd] in *.
  - destruct (IH y Iy x (FB _ Iy) X Y ND) as (p & u & v & (C1 & C2 & C3) & E). exists (n_name x :: p), u, v. split; [|exact E].
    split; [now apply an_child|]. split; [rewrite NN; now apply an_child|exact C3].
  - exists [n_name x], x, y. split; [|reflexivity]. split; [apply an_child; [exact Ix|constructor]|]. split; [rewrite NN; apply an_child; [exact Iy|constructor]|]. now right.
  - exists [n_name x], x, y. split; [|reflexivity]. split; [apply an_child; [exact Ix|constructor]|]. split; [rewrite NN; apply an_child; [exact Iy|constructor]|]. now left.
  - exists [n_name x], x, y. split; [|reflexivity]. split; [apply an_child; [exact Ix|constructor]|]. split; [rewrite NN; apply an_child; [exact Iy|constructor]|]. now left.
Qed.
Lemma merge_distinct_union a b c : distinct a -> distinct b -> merge a b = (c, Done) -> distinct c.
Proof.
  intros Da Db M. assert (X : is_dir a = true /\ is_dir b = true) by (destruct a, b; try discriminate; now split).
  now apply (merge_distinct b a c Da Db (proj1 X) (proj2 X)).
Qed.
Lemma merge_done_iff a b : distinct a -> distinct b -> is_dir a = true -> is_dir b = true ->
  (snd (merge a b) = Done <-> forall p x y, ~ conflict a b p x y).
Proof.
  intros Da Db A B. split.
  - intros D p x y (C1 & C2 & C3). destruct (merge a b) as [c o] eqn:M. cbn in D. subst o.
    pose proof (merge_walk p _ _ _ Da Db A B M) as K. apply at_names_walk in C1, C2; try assumption. rewrite C1, C2 in K.
    destruct K as (X & Y & _). destruct C3; congruence.
  - intros N. assert (Q : snd (merge a b) = Done \/ snd (merge a b) <> Done) by (destruct (snd (merge a b)); [now left|now right|now right]).
    destruct Q as [Q|Q]; [exact Q|]. destruct (merge_any_failed _ _ Db A B Q) as (p & x & y & C & _). now apply N in C.
Qed.
