(** DiskFacts.v -- the disk after a save (C39 to C44). *)

From Coq Require Import String List NArith ZArith Bool Lia.
From Verif Require Import Text Json Base Syntax Parse Tree Interp Build Disk SpecScope SpecTree SpecDisk.
From Verif Require Import TextFacts ScopeFacts TreeFacts PathFacts.
Import ListNotations.

(** ** Entries *)
Lemma assoc_set k c x l : assoc k (set_entry c x l) = if text_eqb c k then Some x else assoc k l.
Proof.
  induction l as [|[j e] l IH]; cbn; [reflexivity|]. destruct (text_eqb j c) eqn:E; cbn.
  - apply text_eqb_eq in E. subst j. now destruct (text_eqb c k).
  - rewrite IH. destruct (text_eqb j k) eqn:F; [|reflexivity]. apply text_eqb_eq in F. subst j. destruct (text_eqb c k) eqn:G; [|reflexivity].
    apply text_eqb_eq in G. subst c. now rewrite text_eqb_refl in E.
Qed.
Lemma assoc_remove_other k c l : k <> c -> assoc k (remove_entry c l) = assoc k l.
Proof.
  intros NE. induction l as [|[j e] l IH]; cbn; [reflexivity|]. destruct (text_eqb j c) eqn:E; cbn.
  - apply text_eqb_eq in E. subst j. destruct (text_eqb c k) eqn:G; [|reflexivity]. apply text_eqb_eq in G. congruence.
  - now rewrite IH.
Qed.
Lemma assoc_remove_same c l : NoDup (map fst l) -> assoc c (remove_entry c l) = None.
Proof.
  induction l as [|[j e] l IH]; cbn; [reflexivity|]. intros ND. inversion ND as [|? ? NI ND']; subst. destruct (text_eqb j c) eqn:E; cbn.
  - apply text_eqb_eq in E. subst j. now apply assoc_none.
  - rewrite E. now apply IH.
Qed.
Lemma lookup_app p q d : lookup (p ++ q) d = match lookup p d with Some e => lookup q e | None => None end.
Proof.
  revert d. induction p as [|c p IH]; intros d; [reflexivity|]. cbn. destruct d as [b|l|]; try reflexivity. destruct (assoc c l); [apply IH|reflexivity].
Qed.
Lemma above_cons c p k q : above (c :: p) (k :: q) <-> c = k /\ above p q.
Proof.
  split.
  - intros [r E]. injection E as -> ->. split; [reflexivity|now exists r].
  - intros [-> [r ->]]. now exists r.
Qed.
Lemma above_trans p q r : above p q -> above q r -> above p r.
Proof. intros [a ->] [b ->]. exists (a ++ b). now rewrite app_assoc. Qed.
Lemma above_refl p : above p p.
Proof. exists []. now rewrite app_nil_r. Qed.
Lemma above_app p q : above p (p ++ q).
Proof. now exists q. Qed.
Lemma above_cancel p q r : above (p ++ q) (p ++ r) <-> above q r.
Proof.
  split; intros [s E].
  - rewrite <- app_assoc in E. apply app_inv_head in E. now exists s.
  - subst r. exists s. now rewrite app_assoc.
Qed.
Lemma update_cons c p' x l : update (c :: p') x (EDir l) =
  match p' with
  | [] => match x with Some e => EDir (set_entry c e l) | None => EDir (remove_entry c l) end
  | _ => match assoc c l with Some e => EDir (set_entry c (update p' x e) l) | None => EDir l end
  end.
Proof. reflexivity. Qed.
Lemma update_outside p : forall q x d, ~ above p q -> what q (update p x d) = what q d.
Proof.
  unfold what. induction p as [|c p IH]; intros q x d N.
  - exfalso. apply N. now exists q.
  - destruct d as [b|l|]; try reflexivity. rewrite update_cons. destruct q as [|k q].
    + destruct p as [|c' p']; [destruct x; reflexivity|]. destruct (assoc c l); reflexivity.
    + destruct (list_eq_dec N.eq_dec c k) as [->|NE].
      * assert (N' : ~ above p q) by (intros A; apply N, above_cons; now split).
        destruct p as [|c' p']; [exfalso; apply N'; now exists q|].
        destruct (assoc k l) as [e|] eqn:A; [|reflexivity]. cbn [lookup]. rewrite assoc_set, text_eqb_refl, A. now apply IH.
      * assert (T : text_eqb c k = false) by (now apply text_eqb_neq).
        destruct p as [|c' p'].
        -- destruct x as [e|]; cbn [lookup]; [now rewrite assoc_set, T|rewrite assoc_remove_other by congruence; reflexivity].
        -- destruct (assoc c l) as [e|]; [|reflexivity]. cbn [lookup]. now rewrite assoc_set, T.
Qed.
Lemma parent_cons c c' p : parent (c :: c' :: p) = c :: parent (c' :: p).
Proof. reflexivity. Qed.
Lemma update_at p : forall e d l, p <> [] -> lookup (parent p) d = Some (EDir l) -> lookup p (update p (Some e) d) = Some e.
Proof.
  induction p as [|c p IH]; intros e d l NE P; [contradiction|]. destruct p as [|c' p].
  - cbn in P. injection P as ->. cbn. now rewrite assoc_set, text_eqb_refl.
  - rewrite parent_cons in P. destruct d as [b|l0|]; try discriminate. cbn [lookup] in P. rewrite update_cons.
    destruct (assoc c l0) as [e0|]; [|discriminate]. cbn [lookup]. rewrite assoc_set, text_eqb_refl. apply (IH e e0 l); [discriminate|exact P].
Qed.
Lemma update_below p q e d l : p <> [] -> lookup (parent p) d = Some (EDir l) -> lookup (p ++ q) (update p (Some e) d) = lookup q e.
Proof. intros NE P. rewrite lookup_app. now rewrite (update_at p e d l NE P). Qed.
Lemma assoc_in {A} k (l : list (text * A)) v : assoc k l = Some v -> In (k, v) l.
Proof.
  induction l as [|[j w] l IH]; cbn; [discriminate|]. destruct (text_eqb j k) eqn:E; [|now right; apply IH].
  apply text_eqb_eq in E. intros X; injection X as ->. left. now subst.
Qed.
Lemma distinct_entry l c e : ent_distinct (EDir l) -> assoc c l = Some e -> ent_distinct e.
Proof. intros D A. inversion D as [| |? ND F]; subst. rewrite Forall_forall in F. apply assoc_in in A. now apply (F (c, e)). Qed.
Lemma remove_none p : forall q d, p <> [] -> ent_distinct d -> lookup (p ++ q) (update p None d) = None.
Proof.
  induction p as [|c p IH]; intros q d NE D; [contradiction|]. destruct d as [b|l|]; try reflexivity. rewrite update_cons.
  destruct p as [|c' p].
  - cbn [app lookup]. rewrite assoc_remove_same; [reflexivity|]. now inversion D.
  - destruct (assoc c l) as [e|] eqn:A.
    + change ((c :: c' :: p) ++ q) with (c :: (c' :: p) ++ q). cbn [lookup]. rewrite assoc_set, text_eqb_refl.
      apply (IH q e); [discriminate|]. now apply distinct_entry in A.
    + change ((c :: c' :: p) ++ q) with (c :: (c' :: p) ++ q). cbn [lookup]. now rewrite A.
Qed.
Lemma set_entry_names c x l : incl (map fst (set_entry c x l)) (c :: map fst l) /\ (NoDup (map fst l) -> NoDup (map fst (set_entry c x l))).
Proof.
  induction l as [|[k e] l [I D]]; cbn.
  - split; [apply incl_refl|]. intros _. constructor; [now intros []|constructor].
  - destruct (text_eqb k c) eqn:E; cbn.
    + split; [now apply incl_tl, incl_refl|tauto].
    + split.
      * intros z [<-|H]; [right; now left|]. apply I in H. destruct H as [<-|H]; [now left|right; now right].
      * intros ND. inversion ND as [|? ? NI ND']; subst. constructor; [|now apply D]. intros H. apply I in H. destruct H as [<-|H]; [|contradiction].
        now rewrite text_eqb_refl in E.
Qed.
Lemma set_entry_in c x l k e : In (k, e) (set_entry c x l) -> (k, e) = (c, x) \/ (k = c /\ e = x) \/ In (k, e) l.
Proof.
  induction l as [|[j f] l IH]; cbn.
  - intros [<-|[]]. now left.
  - destruct (text_eqb j c) eqn:E; cbn.
    + apply text_eqb_eq in E. intros [H|H]; [injection H as <- <-; right; left; now split|]. right. right. now right.
    + intros [<-|H]; [right; right; now left|]. destruct (IH H) as [G|[G|G]]; [now left|right; now left|right; right; now right].
Qed.
Lemma remove_entry_in c l x : In x (remove_entry c l) -> In x l.
Proof. induction l as [|[j f] l IH]; cbn; [tauto|]. destruct (text_eqb j c); cbn; tauto. Qed.
Lemma remove_entry_nodup c l : NoDup (map fst l) -> NoDup (map fst (remove_entry c l)).
Proof.
  induction l as [|[j f] l IH]; cbn; [constructor|]. intros ND. inversion ND as [|? ? NI ND']; subst. destruct (text_eqb j c); cbn; [exact ND'|].
  constructor; [|now apply IH]. intros H. apply NI. apply in_map_iff in H. destruct H as ([k e] & <- & H). apply remove_entry_in in H. now apply (in_map fst) in H.
Qed.
Lemma update_distinct p : forall x d, ent_distinct d -> (forall e, x = Some e -> ent_distinct e) -> ent_distinct (update p x d).
Proof.
  induction p as [|c p IH]; intros x d D X.
  - cbn. destruct x as [e|]; [now apply X|exact D].
  - destruct d as [b|l|]; try exact D. rewrite update_cons. inversion D as [| |? ND F]; subst. rewrite Forall_forall in F.
    assert (G : forall e, ent_distinct e -> ent_distinct (EDir (set_entry c e l))).
    { intros e De. constructor; [now apply set_entry_names|]. apply Forall_forall. intros [k f] H. cbn.
      destruct (set_entry_in _ _ _ _ _ H) as [E|[[_ ->]|E]]; [now injection E as _ ->|exact De|]. now apply (F (k, f)). }
    destruct p as [|c' p'].
    + destruct x as [e|]; [now apply G, X|]. constructor; [now apply remove_entry_nodup|]. apply Forall_forall. intros y H. apply F. now apply remove_entry_in in H.
    + destruct (assoc c l) as [e|] eqn:A; [|exact D]. apply G. apply IH; [|exact X]. now apply distinct_entry in A.
Qed.

(** ** Operations *)
Lemma run_op_outside o d d' : run_op o d = Some d' -> same_outside (op_path o) d d'.
Proof.
  intros E q N. destruct o as [p|p|p|p b]; cbn [run_op op_path] in *.
  - destruct (is_edir (lookup p d)); [|now injection E as <-]. unfold rmtree in E. destruct p as [|c p]; [discriminate|].
    destruct (lookup (c :: p) d) as [[|l|]|]; try discriminate. injection E as <-. exact (update_outside (c :: p) q None d N).
  - unfold mkdir in E. destruct (lookup p d); [discriminate|]. destruct (is_edir _); [|discriminate]. injection E as <-. now apply update_outside.
  - unfold mkdir in E. destruct (lookup p d); [now injection E as <-|]. destruct (is_edir _); [|discriminate]. injection E as <-. now apply update_outside.
  - unfold write_file in E. destruct (lookup p d) as [[|l|]|]; try discriminate; [injection E as <-; now apply update_outside|].
    destruct (is_edir _); [|discriminate]. injection E as <-. now apply update_outside.
Qed.
Lemma same_outside_refl p d : same_outside p d d.
Proof. now intros q _. Qed.
Lemma same_outside_trans p a b c : same_outside p a b -> same_outside p b c -> same_outside p a c.
Proof. intros H K q N. rewrite (K q N). now apply H. Qed.
Lemma same_outside_weaken p q d d' : above p q -> same_outside q d d' -> same_outside p d d'.
Proof. intros A H r N. apply H. intros B. apply N. now apply (above_trans _ q). Qed.
Lemma run_ops_outside p ops : Forall (fun o => above p (op_path o)) ops -> forall f d, same_outside p d (fst (run_ops f ops d)).
Proof.
  induction 1 as [|o ops A F IH]; intros f d; cbn [run_ops]; [apply same_outside_refl|].
  assert (G : forall f', same_outside p d (fst (match run_op o d with None => (d, false) | Some d' => run_ops f' ops d' end))).
  { intros f'. destruct (run_op o d) as [d'|] eqn:E; [|apply same_outside_refl]. apply run_op_outside in E.
    apply (same_outside_trans _ _ d'); [|apply IH]. now apply (same_outside_weaken _ (op_path o)). }
  destruct f as [[[|k] junk]|]; try apply G. cbn [fst]. intros q N. apply update_outside. intros B. apply N. now apply (above_trans _ (op_path o)).
Qed.
