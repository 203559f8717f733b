(** ProjectFacts.v -- builds of a project directory (C39 to C44). *)

From Coq Require Import String List NArith ZArith Bool Lia.
From Verif Require Import Text Json Base Syntax Parse Tree Interp Build Disk Cli SpecScope SpecTree SpecDisk SpecProject.
From Verif Require Import TextFacts ScopeFacts TreeFacts PathFacts MergeFacts BuilderFacts DiskFacts SaveFacts.
Import ListNotations.

(** ** Saves that succeed *)
Definition grows (dir : path) (l : list (path * option bytes)) : Prop := forall l1 q x l2, l = l1 ++ (q, x) :: l2 ->
  (q = dir /\ x = None) \/ (q <> [] /\ (parent q = dir \/ In (parent q, None) l1)).
Lemma parent_snoc p (k : text) : parent (p ++ [k]) = p.
Proof. apply removelast_last. Qed.
Lemma snoc_not_nil (p : path) k : p ++ [k] <> [].
Proof. now destruct p. Qed.
Lemma parent_two p (j k : text) : parent (p ++ [j; k]) = p ++ [j].
Proof. replace (p ++ [j; k]) with ((p ++ [j]) ++ [k]) by now rewrite <- app_assoc. apply parent_snoc. Qed.
Lemma grows_nil dir : grows dir [].
Proof. intros [|] ? ? ? E; discriminate. Qed.
Lemma grows_app dir a b : grows dir a -> grows dir b -> grows dir (a ++ b).
Proof.
  intros A B l1 q x l2 E. apply app_eq_app in E. destruct E as (m & [[E1 E2]|[E1 E2]]).
  - destruct m as [|y m]; cbn in E2.
    + destruct (B [] q x l2 (eq_sym E2)) as [H|[N [H|[]]]]; [now left|right; split; [exact N|now left]].
    + injection E2 as <- E2. destruct (A l1 q x m E1) as [H|H]; [now left|now right].
  - destruct (B m q x l2 E2) as [H|[N [H|H]]]; [now left|right; split; [exact N|now left]|]. right. split; [exact N|]. right. rewrite E1. apply in_app_iff. now right.
Qed.
Lemma saves_grow cf : (forall dir n l, saves cf dir n l -> grows dir l) /\ (forall dir ch l, saves_all cf dir ch l -> grows dir l).
Proof.
  apply (saves_both cf (fun dir n l _ => grows dir l) (fun dir ch l _ => grows dir l)).
  - intros. apply grows_nil.
  - intros dir name stem b pc meta src _ _ _ [|e1 [|e2 l1]] q x l2 E; cbn in E.
    + injection E as <- <- _. right. split; [apply snoc_not_nil|]. left. apply parent_snoc.
    + injection E as <- <- <- _. right.
      split; [now destruct dir|]. right. rewrite parent_two. now left.
    + injection E as _ _ E. now destruct l1.
  - intros dir name stem b pc meta src _ _ _ [|e1 [|e2 l1]] q x l2 E; cbn in E.
    + injection E as <- <- _. now left.
    + injection E as _ <- <- _. right. split; [apply snoc_not_nil|]. left. apply parent_snoc.
    + injection E as _ _ E. now destruct l1.
  - intros dir name b pc meta src _ _ _ [|e1 l1] q x l2 E; cbn in E.
    + injection E as <- <- _. right. split; [apply snoc_not_nil|]. left. apply parent_snoc.
    + injection E as _ E. now destruct l1.
  - intros dir name ch src l _ _ IH [|e1 l1] q x l2 E; cbn in E.
    + injection E as <- <- _. right. split; [apply snoc_not_nil|]. left. apply parent_snoc.
    + injection E as <- E. right. destruct (IH l1 q x l2 E) as [[-> ->]|[N [H|H]]].
      * split; [apply snoc_not_nil|]. left. apply parent_snoc.
      * split; [exact N|]. right. left. now rewrite H.
      * split; [exact N|]. right. now right.
  - intros. apply grows_nil.
  - intros dir c ch l l' _ A _ B. now apply grows_app.
Qed.
Lemma parent_app p q : q <> [] -> parent (p ++ q) = p ++ parent q.
Proof. intros NE. unfold parent. now rewrite removelast_app. Qed.
Lemma what_edir p d : what p d = KDir -> is_edir (lookup p d) = true.
Proof. unfold what. now rewrite is_edir_spec. Qed.
Lemma run_grows p l : no_clash l -> grows [] l -> forall l2 l1 d, l = l1 ++ l2 -> exactly p l1 d -> exists d', run_ops None (map (op_of p) l2) d = (d', true).
Proof.
  intros NC G. induction l2 as [|[q x] l2 IH]; intros l1 d E X.
  - cbn. now exists d.
  - assert (ST : exists d', run_op (op_of p (q, x)) d = Some d').
    { pose proof (G l1 q x l2 E) as H.
      assert (NF : In (parent q, None) l1 -> what (p ++ parent q) d = KDir).
      { intros I. apply X. right. split; [exact I|]. intros b J. apply (NC (parent q) b); rewrite E; apply in_app_iff; now left. }
      assert (PD : q <> [] -> parent q = [] \/ In (parent q, None) l1 -> is_edir (lookup (parent (p ++ q)) d) = true).
      { intros N [Z|Z]; rewrite (parent_app _ _ N); apply what_edir; [rewrite Z; apply X; now left|now apply NF]. }
      destruct x as [b|]; unfold op_of; cbn [fst snd run_op].
      - destruct H as [[_ H]|[N H]]; [discriminate|]. unfold write_file.
        destruct (lookup (p ++ q) d) as [[b'|l'|]|] eqn:L.
        + eexists. reflexivity.
        + exfalso. assert (W : what (p ++ q) d = KDir) by (unfold what; now rewrite L). apply X in W. destruct W as [W|[W _]]; [contradiction|].
          apply (NC q b); rewrite E; apply in_app_iff; [right; now left|now left].
        + exfalso. assert (W : what (p ++ q) d = KOther) by (unfold what; now rewrite L). now apply X in W.
        + rewrite (PD N H). eexists. reflexivity.
      - unfold mkdir. destruct (lookup (p ++ q) d) eqn:L; [eexists; reflexivity|]. destruct (path_eq q []) as [->|N].
        + exfalso. assert (W : what (p ++ []) d = KDir) by (apply X; now left). unfold what in W. now rewrite L in W.
        + destruct H as [[H _]|[_ H]]; [contradiction|]. rewrite (PD N H). eexists. reflexivity. }
    destruct ST as [d1 ST]. cbn [map run_ops]. rewrite ST. apply (IH (l1 ++ [(q, x)]) d1); [now rewrite <- app_assoc|]. now apply (exactly_step p l1 d).
Qed.
Lemma save_succeeds st p d out ch l : st_output st = Some out -> n_children out = Some ch -> saves_all (st_config st) [] ch l -> no_clash l ->
  ent_distinct d -> p <> [] -> what (parent p) d = KDir -> what p d = KNone \/ what p d = KDir ->
  exists d', save None st p d = (d', Ok tt).
Proof.
  intros O C S NC D NE PD W. unfold save. rewrite O. destruct out as [|name ch' src]; [discriminate|]. cbn in C. injection C as ->. cbn [save_ops].
  pose proof S as S'. apply saves_ops with (p := p) in S. rewrite app_nil_r in S. rewrite S.
  assert (exists d1, run_op (ORmTreeIfDir p) d = Some d1 /\ what p d1 = KNone /\ what (parent p) d1 = KDir) as (d1 & R1 & W1 & P1).
  { cbn [run_op]. destruct (is_edir (lookup p d)) eqn:ED.
    - pose proof (is_edir_some _ ED) as [l' L]. exists (update p None d). split; [|split].
      + unfold rmtree. destruct p; [contradiction|]. now rewrite L.
      + unfold what. rewrite <- (app_nil_r p) at 1. now rewrite (remove_none p [] d NE D).
      + rewrite update_outside; [exact PD|]. intros [r A]. assert (LE := f_equal (@length text) A). rewrite app_length in LE.
        assert (LP : length p = (1 + length (parent p))%nat) by (unfold parent; rewrite (app_removelast_last (l := p) [] NE) at 1; rewrite app_length; cbn; lia). lia.
    - exists d. split; [reflexivity|]. split; [|exact PD]. destruct W as [W|W]; [exact W|]. apply is_edir_spec in W. congruence. }
  assert (exists d2, run_op (OMkDir p) d1 = Some d2) as [d2 R2].
  { cbn [run_op]. unfold mkdir. rewrite (kind_none _ W1), (what_edir _ _ P1). eexists. reflexivity. }
  destruct (run_grows p l NC (proj2 (saves_grow (st_config st)) _ _ _ S') l [] d2 eq_refl (exactly_fresh p d d1 d2 D R1 R2)) as [d' R].
  exists d'. cbn [run_ops]. rewrite R1, R2, R. reflexivity.
Qed.
Lemma no_overwrite_last l q b : no_overwrite l -> In (q, Some b) l -> last_file l q b.
Proof.
  intros N I. apply in_split in I. destruct I as (l1 & l2 & E). exists l1, l2. split; [exact E|]. intros b' J. apply (N l1 q b l2 b' E). apply in_app_iff. now right.
Qed.

(** ** Names of outputs *)
Lemma forall2_in_r {A B} (P : A -> B -> Prop) l l' y : Forall2 P l l' -> In y l' -> exists x, In x l /\ P x y.
Proof.
  induction 1 as [|a b l l' H F IH]; [intros []|]. intros [->|I]; [exists a; split; [now left|exact H]|]. destruct (IH I) as (x & J & K). exists x. split; [now right|exact K].
Qed.
Lemma plain_html stem : plain (stem ++ lit ".md") -> stem <> [] -> plain (stem ++ lit ".html").
Proof.
  intros (_ & _ & _ & NS) NE. repeat split; try (intros E; apply (f_equal (@length N)) in E; rewrite app_length in E; cbn in E; lia).
  intros I. apply in_app_iff in I. destruct I as [I|I]; [apply NS, in_app_iff; now left|]. repeat (destruct I as [I|I]; [discriminate|]). exact I.
Qed.
Lemma tame_inward cf name b pc meta src : plain name -> name <> lit "...html" -> tame cf (NFile name b pc meta src).
Proof. intros P N. split; [exact P|]. intros stem (_ & _ & _ & E) ->. apply N. now rewrite E. Qed.
Lemma tame_built ps cf e : flat_map pl_parsers ps = [] -> forall name n, built_from ps name e n -> inward name -> all_names inward e ->
  forall m, inside m n -> tame cf m.
Proof.
  intros NP. induction e as [b| |l IH] using ent_ind2; intros name n B (P & N1 & N2) A m J.
  - inversion B; subst.
    + inversion J; subst. apply tame_inward; [now apply plain_html|]. intros E. apply N2. change (lit "...html") with (lit ".." ++ lit ".html") in E. apply app_inv_tail in E. subst stem. reflexivity.
    + inversion J; subst. now apply tame_inward.
    + match goal with H : In _ (flat_map pl_parsers ps) |- _ => rewrite NP in H; destruct H end.
    + inversion J; subst. now apply tame_inward.
  - inversion B.
  - inversion B as [? ? ch src F| | | |]; subst. inversion J; subst; [exact P|].
    inversion A as [| |? FA]; subst. clear B J A.
    match goal with H : In ?c ch |- _ => revert H; rename c into c0 end. intros I.
    induction F as [|x y l' ch' HB F IHF]; [destruct I|]. inversion IH as [|? ? IHx IH']; subst. inversion FA as [|? ? [FP FN] FA']; subst. destruct I as [->|I].
    + eapply IHx; eauto.
    + now apply IHF.
Qed.
Lemma tame_built_tree ps cf e name out : flat_map pl_parsers ps = [] -> built_from ps name e out -> all_names inward e -> tame_tree cf out.
Proof.
  intros NP B A ch c m C I J. inversion B as [? ? ch' src F| | | |]; subst; try discriminate. cbn in C. injection C as ->. inversion A as [| |? FA]; subst.
  destruct (forall2_in_r _ _ _ _ F I) as ([k x] & I' & B'). rewrite Forall_forall in FA. destruct (FA _ I') as [P N].
  eapply tame_built; eauto.
Qed.
Lemma tame_static h cf e : forall p name n, create_from h [] false p name e = Ok n -> plain name -> all_names plain e -> forall m, inside m n -> tame cf m.
Proof.
  induction e as [b| |l IH] using ent_ind2; intros p name n C P A m J; [|discriminate|].
  - cbn [create_from] in C. rewrite create_file_static in C. injection C as <-. inversion J; subst. split; [exact P|]. intros stem (_ & _ & X & _). congruence.
  - cbn [create_from] in C. destruct (map_res _ l) as [ch| | |] eqn:M; try discriminate. cbn [bind] in C. injection C as <-. inversion J; subst; [exact P|].
    inversion A as [| |? FA]; subst. apply map_res_ok in M. match goal with H : In _ ch |- _ => destruct (forall2_in_r _ _ _ _ M H) as ([k x] & I' & B') end.
    rewrite Forall_forall in FA, IH. destruct (FA _ I'). eapply (IH _ I'); eauto.
Qed.
Lemma tame_static_tree h cf p name l out : create_from h [] false p name (EDir l) = Ok out -> all_names plain (EDir l) -> tame_tree cf out.
Proof.
  intros C A ch c m EC I J. cbn [create_from] in C. destruct (map_res _ l) as [ch'| | |] eqn:M; try discriminate. cbn [bind] in C. injection C as <-. cbn in EC. injection EC as ->.
  inversion A as [| |? FA]; subst. apply map_res_ok in M. destruct (forall2_in_r _ _ _ _ M I) as ([k x] & I' & B').
  rewrite Forall_forall in FA. destruct (FA _ I'). eapply tame_static; eauto.
Qed.
Lemma inside_names m n : inside m n -> exists ks, at_names n ks m.
Proof. induction 1 as [|m name ch src c I J [ks K]]; [eexists; constructor|]. eexists. now apply an_child with (c := c); eauto. Qed.
Lemma names_inside n ks m : at_names n ks m -> inside m n.
Proof. induction 1 as [|name ch src c ks n I A IH]; [constructor|]. now apply in_child with c. Qed.
Lemma at_names_name n ks m k : at_names n (ks ++ [k]) m -> n_name m = k.
Proof.
  revert n. induction ks as [|j ks IH]; intros n H; cbn in H; inversion H; subst.
  - match goal with H : at_names _ [] _ |- _ => now inversion H end.
  - eauto.
Qed.
Lemma tame_names cf out : tame_tree cf out <-> forall ks k m, at_names out (ks ++ [k]) m -> tame cf m.
Proof.
  split.
  - intros T ks k m H. assert (exists k' ks', ks ++ [k] = k' :: ks') as (k' & ks' & E) by (destruct ks; cbn; eauto). rewrite E in H. inversion H; subst.
    eapply T; [reflexivity|eassumption|]. eapply names_inside; eassumption.
  - intros H ch c m C I J. destruct out as [|name ch' src]; [discriminate|]. cbn in C. injection C as ->. apply inside_names in J. destruct J as [ks J].
    assert (K : at_names (NDir name ch src) (n_name c :: ks) m) by now apply an_child.
    destruct (exists_last (l := n_name c :: ks) ltac:(discriminate)) as (a & k & E). rewrite E in K. now apply H in K.
Qed.
Lemma tame_same cf x y : tame cf x -> same_node y x -> n_name y = n_name x -> tame cf y.
Proof. destruct x, y; cbn; try tauto; [intros T (-> & _ & -> & _) _; exact T|]. now intros T _ ->. Qed.
Lemma tame_merge cf a b c : merge a b = (c, Done) -> tame_tree cf a -> tame_tree cf b -> tame_tree cf c.
Proof.
  intros M A B. apply tame_names. intros ks k m H. destruct (merge_any_union a b c M) as [F _]. destruct (F _ _ H) as (y & K & S).
  assert (T : tame cf y) by (destruct K as [K|K]; eapply tame_names in K; eauto). apply (tame_same cf y m T S).
  apply at_names_name in H. rewrite H. destruct K as [K|K]; apply at_names_name in K; now rewrite K.
Qed.
Lemma all_saved f st p d d' out ch l q b : st_output st = Some out -> n_children out = Some ch ->
  saves_all (st_config st) [] ch l -> no_overwrite l -> ent_distinct d -> save f st p d = (d', Ok tt) -> In (q, Some b) l -> what (p ++ q) d' = KFile b.
Proof. intros O C S N D E I. apply (save_exactly f st p d d' out ch l O C S D E). now apply no_overwrite_last. Qed.
Definition file_paths (l : list (path * option bytes)) : list path := flat_map (fun e => match snd e with Some _ => [fst e] | None => [] end) l.
Lemma file_paths_in l q b : In (q, Some b) l -> In q (file_paths l).
Proof. intros I. apply in_flat_map. exists (q, Some b). split; [exact I|now left]. Qed.
Lemma distinct_no_overwrite l : NoDup (file_paths l) -> no_overwrite l.
Proof.
  intros N l1 q b l2 b' -> I. unfold file_paths in N. rewrite flat_map_app in N. cbn [flat_map snd fst app] in N. apply NoDup_remove_2 in N. apply N.
  apply in_app_iff. apply in_app_iff in I. destruct I as [I|I]; apply file_paths_in in I; [left|right]; exact I.
Qed.
Lemma op_of_inj p l : forall l', map (op_of p) l = map (op_of p) l' -> l = l'.
Proof.
  induction l as [|[q x] l IH]; intros [|[q' x'] l'] E; try discriminate; [reflexivity|]. cbn [map] in E. injection E as E1 E2. rewrite (IH _ E2). f_equal.
  unfold op_of in E1. destruct x, x'; cbn [fst snd] in E1; try discriminate; injection E1; intros; subst; f_equal; now apply app_inv_head in H || (apply app_inv_head in H0; now subst).
Qed.
Lemma saves_all_is cf ch l l' : saves_all cf [] ch l -> flat_map (save_recur cf []) ch = map (op_of []) l' -> l = l'.
Proof. intros S E. apply (op_of_inj []). rewrite <- E. symmetry. exact (proj2 (saves_ops cf []) [] ch l S). Qed.
