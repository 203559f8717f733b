(** JsFacts.v -- JavaScript values and functions (C56, C57, C59). *)

From Coq Require Import String List NArith ZArith Bool Lia Permutation Sorted.
From Verif Require Import Text Utf8 Json Base Syntax Parse Tree Interp Js SpecScope SpecRender SpecJs.
From Verif Require Import SpecChars TextFacts CharFacts ScopeFacts RenderFacts BlockFacts.
Import ListNotations.

Section ValueInd.
  Variable P : value -> Prop.
  Hypothesis Hnull : P VNull. Hypothesis Hbool : forall b, P (VBool b). Hypothesis Hnum : forall x, P (VNum x).
  Hypothesis Hstr : forall t, P (VStr t). Hypothesis Harr : forall l, Forall P l -> P (VArr l).
  Hypothesis Hobj : forall l, Forall (fun kv => P (snd kv)) l -> P (VObj l).
  Fixpoint value_ind2 (v : value) : P v :=
    match v with
    | VNull => Hnull | VBool b => Hbool b | VNum x => Hnum x | VStr t => Hstr t
    | VArr l => Harr l ((fix go l := match l return Forall P l with [] => Forall_nil _ | x :: l' => Forall_cons _ (value_ind2 x) (go l') end) l)
    | VObj l => Hobj l ((fix go l := match l return Forall (fun kv => P (snd kv)) l with [] => Forall_nil _ | kv :: l' => Forall_cons _ (value_ind2 (snd kv)) (go l') end) l)
    end.
End ValueInd.

(** ** Properties of an object *)
Lemma index_show k n : index_of k n <-> (n < 4294967295)%N /\ k = show_N n.
Proof. unfold index_of. now rewrite show_only. Qed.
(** [listed_as] in terms of [show_N]. *)
Definition listed (ks : list text) : Prop := exists ns rest,
  ks = map show_N ns ++ rest /\ StronglySorted N.lt ns /\ Forall (fun n => (n < 4294967295)%N) ns /\
  forall k n, In k rest -> ~ index_of k n.
Lemma listed_iff ks : listed_as ks <-> listed ks.
Proof.
  split.
  - intros (first & ns & rest & -> & F & SS & NX). exists ns, rest. split; [f_equal|split; [exact SS|split; [|exact NX]]].
    + clear SS. induction F as [|k n first ns H F IH]; [reflexivity|]. cbn [map]. apply index_show in H. destruct H as [_ ->]. now f_equal.
    + clear SS. induction F as [|k n first ns H F IH]; constructor; [apply H|exact IH].
  - intros (ns & rest & -> & SS & LT & NX). exists (map show_N ns), ns, rest. split; [reflexivity|split; [|now split]].
    clear SS. induction LT as [|n ns H LT IH]; cbn [map]; constructor; [now apply index_show|exact IH].
Qed.
Lemma array_index_spec k n : array_index k = Some n <-> index_of k n.
Proof.
  rewrite index_show. unfold array_index. split.
  - destruct (parse_digits k) as [m|]; [|discriminate]. destruct (m <? 4294967295)%N eqn:L; [|discriminate]. destruct (text_eqb (show_N m) k) eqn:E; [|discriminate].
    intros H; injection H as <-. apply text_eqb_eq in E. apply N.ltb_lt in L. now subst.
  - intros [L ->]. rewrite parse_digits_show. apply N.ltb_lt in L. rewrite L. now rewrite text_eqb_refl.
Qed.
Lemma has_key_spec k l : has_key k l = true <-> In k (map fst l).
Proof.
  induction l as [|[k' v] l IH]; cbn [has_key map fst In]; [split; [discriminate|intros []]|]. rewrite orb_true_iff, text_eqb_eq, IH. reflexivity.
Qed.
Lemma insert_index_perm n k v l : Permutation (insert_index n k v l) (l ++ [(k, v)]).
Proof.
  rewrite Permutation_app_comm. cbn [app]. induction l as [|[k' v'] l IH]; cbn [insert_index]; [reflexivity|].
  destruct (array_index k') as [n'|]; [|reflexivity]. destruct (n' <? n)%N; [|reflexivity]. rewrite IH. apply perm_swap.
Qed.
Lemma js_set_perm l k v : k <> lit "__proto__" -> ~ In k (map fst l) -> Permutation (js_set l k v) (l ++ [(k, v)]).
Proof.
  intros NP NI. unfold js_set. destruct (text_eqb k (lit "__proto__")) eqn:E; [apply text_eqb_eq in E; contradiction|].
  destruct (has_key k l) eqn:H; [apply has_key_spec in H; contradiction|]. destruct (array_index k); [apply insert_index_perm|reflexivity].
Qed.
Lemma sets_perm m : forall acc, NoDup (map fst acc ++ map fst m) -> ~ In (lit "__proto__") (map fst m) ->
  Permutation (fold_left (fun acc kv => js_set acc (fst kv) (snd kv)) m acc) (acc ++ m).
Proof.
  induction m as [|[k v] m IH]; intros acc ND NP; cbn [fold_left fst snd map] in *; [now rewrite app_nil_r|].
  assert (S : Permutation (js_set acc k v) (acc ++ [(k, v)])).
  { apply js_set_perm; [intros ->; apply NP; now left|]. apply NoDup_remove_2 in ND. intros H. apply ND, in_app_iff. now left. }
  rewrite IH.
  - rewrite S, <- app_assoc. reflexivity.
  - apply (Permutation_map fst) in S. rewrite map_app in S. cbn [map fst] in S. apply (Permutation_NoDup (l := map fst acc ++ k :: map fst m)); [|exact ND].
    rewrite S, <- app_assoc. reflexivity.
  - intros H. apply NP. now right.
Qed.
Lemma js_set_last l k v : k <> lit "__proto__" -> ~ In k (map fst l) -> listed (map fst l ++ [k]) -> js_set l k v = l ++ [(k, v)].
Proof.
  intros NP NI (ns & rest & E & SS & LT & NX). unfold js_set. destruct (text_eqb k (lit "__proto__")) eqn:Q; [apply text_eqb_eq in Q; contradiction|].
  destruct (has_key k l) eqn:H; [apply has_key_spec in H; contradiction|]. clear Q H. destruct (array_index k) as [n|] eqn:A; [|reflexivity].
  apply array_index_spec in A. destruct rest as [|x rest _] using rev_ind.
  - rewrite app_nil_r in E. destruct ns as [|m ns _] using rev_ind; [destruct (map fst l); discriminate|].
    rewrite map_app in E. cbn [map] in E. apply app_inj_tail in E. destruct E as [E K].
    apply Forall_app in LT. destruct LT as [LT LM]. inversion LM; subst.
    assert (M : array_index (show_N m) = Some m) by (apply array_index_spec, index_show; now split). apply index_show in A. destruct A as [_ A].
    assert (Mn : m = n) by (pose proof (parse_digits_show m) as X1; pose proof (parse_digits_show n) as X2; rewrite <- A in X2; congruence). subst n. clear A.
    assert (B : Forall (fun x => N.lt x m) ns).
    { clear - SS. induction ns as [|y ns IH]; [constructor|]. cbn in SS. inversion SS; subst. constructor; [|now apply IH]. rewrite Forall_forall in H2. apply H2, in_app_iff. right. now left. }
    clear - E B LT. revert l E. induction ns as [|y ns IH]; intros [|[k' v'] l] E; try discriminate; [reflexivity|]. cbn [map fst] in E. injection E as -> E. inversion B; inversion LT; subst.
    cbn [insert_index]. replace (array_index (show_N y)) with (Some y) by (symmetry; apply array_index_spec, index_show; now split).
    replace (y <? m)%N with true by (symmetry; now apply N.ltb_lt). cbn [app]. f_equal. now apply IH.
  - exfalso. rewrite app_assoc in E. apply app_inj_tail in E. destruct E as [_ ->]. apply (NX x n); [apply in_app_iff; right; now left|exact A].
Qed.
Lemma listed_prefix a b : listed (a ++ b) -> listed a.
Proof.
  intros (ns & rest & E & SS & LT & NX). revert rest E NX. induction b as [|x b IH] using rev_ind; intros rest E NX.
  - rewrite app_nil_r in E. now exists ns, rest.
  - revert E NX. destruct rest as [|y rest _] using rev_ind; intros E NX.
    + rewrite app_nil_r in E. rewrite app_assoc in E. destruct ns as [|m ns _] using rev_ind; [destruct (a ++ b); discriminate|].
      rewrite map_app in E. cbn [map] in E. apply app_inj_tail in E. destruct E as [E _].
      assert (SS' : StronglySorted N.lt ns).
      { clear - SS. induction ns as [|z ns IH]; [constructor|]. cbn in SS. inversion SS; subst. constructor; [now apply IH|]. apply Forall_app in H2. apply H2. }
      apply Forall_app in LT. clear IH. exists (firstn (length a) ns), []. split.
      * rewrite app_nil_r. rewrite <- firstn_map, <- E, firstn_app, Nat.sub_diag, firstn_all. cbn. now rewrite app_nil_r.
      * split; [|split; [|intros k n []]].
        -- clear - SS'. generalize (length a) as i. induction ns as [|z ns IH]; intros [|i]; cbn; try constructor; inversion SS'; subst; [now apply IH|].
           rewrite Forall_forall in *. intros q Q. apply H2. clear - Q. revert i Q. induction ns as [|u ns IH]; intros [|i] Q; cbn in Q; try destruct Q as [->|Q]; try contradiction; [now left|right; now apply (IH i)].
        -- destruct LT as [LT _]. rewrite Forall_forall in *. intros q Q. apply LT. revert Q. generalize (length a) as i. clear. induction ns as [|u ns IH]; intros [|i] Q; cbn in Q; try destruct Q as [->|Q]; try contradiction; [now left|right; now apply (IH i)].
    + rewrite !app_assoc in E. apply app_inj_tail in E. destruct E as [E _]. apply (IH rest E). intros k n I. apply NX, in_app_iff. now left.
Qed.
Lemma sets_in_order m : forall acc, NoDup (map fst acc ++ map fst m) -> ~ In (lit "__proto__") (map fst m) -> listed (map fst acc ++ map fst m) ->
  fold_left (fun acc kv => js_set acc (fst kv) (snd kv)) m acc = acc ++ m.
Proof.
  induction m as [|[k v] m IH]; intros acc ND NP LS; cbn [fold_left fst snd map] in *; [now rewrite app_nil_r|].
  assert (S : js_set acc k v = acc ++ [(k, v)]).
  { apply js_set_last; [intros ->; apply NP; now left| |].
    - apply NoDup_remove_2 in ND. intros H. apply ND, in_app_iff. now left.
    - change (k :: map fst m) with ([k] ++ map fst m) in LS. rewrite app_assoc in LS. now apply listed_prefix in LS. }
  rewrite S, IH, <- app_assoc; [reflexivity| | |].
  - rewrite map_app, <- app_assoc. exact ND.
  - intros H. apply NP. now right.
  - rewrite map_app, <- app_assoc. exact LS.
Qed.

(** ** Back to JSON *)
(** The list functions inside [js_to_json]. *)
Definition need {A} (f : value -> A) (r : res unit (option value)) : res unit A :=
  match r with Ok (Some y) => Ok (f y) | Ok None => Panic Pn_plugin | Err e => Err e | Panic p => Panic p | OutOfFuel => OutOfFuel end.
Lemma arr_back l vs : Forall2 (fun x y => js_to_json x = Ok (Some y)) l vs -> js_to_json (JsArr l) = Ok (Some (VArr vs)).
Proof.
  intros F. cbn [js_to_json]. match goal with |- context [map_res ?f l] => assert (E : map_res f l = Ok vs) end; [|now rewrite E].
  induction F as [|x y l vs H F IH]; [reflexivity|]. cbn [map_res]. rewrite H. cbn [bind]. now rewrite IH.
Qed.
Lemma obj_back l vs : Forall2 (fun x y => fst x = fst y /\ js_to_json (snd x) = Ok (Some (snd y))) l vs -> js_to_json (JsObj l) = Ok (Some (VObj vs)).
Proof.
  intros F. cbn [js_to_json]. match goal with |- context [map_res ?f l] => assert (E : map_res f l = Ok vs) end; [|now rewrite E].
  induction F as [|[k x] [k' y] l vs [K H] F IH]; [reflexivity|]. cbn [fst snd] in *. subst k'. cbn [map_res]. cbn [snd fst]. rewrite H. cbn [bind]. now rewrite IH.
Qed.
Definition js_members (l : list (text * value)) : list (text * jsv) := map (fun kv => (fst kv, json_to_js (snd kv))) l.
Lemma members_keys l : map fst (js_members l) = map fst l.
Proof. unfold js_members. rewrite map_map. reflexivity. Qed.
Lemma obj_js l : json_to_js (VObj l) = JsObj (fold_left (fun acc kv => js_set acc (fst kv) (snd kv)) (js_members l) []).
Proof. reflexivity. Qed.
Lemma round_trip v : keyed v -> in_order v -> js_to_json (json_to_js v) = Ok (Some v).
Proof.
  induction v as [|b|x|t|l IH|l IH] using value_ind2; intros K O; try reflexivity.
  - cbn [json_to_js]. apply arr_back. inversion K as [| | | |? KL|]; inversion O as [| | | |? OL|]; subst. clear K O. induction IH as [|x l H IH IH2]; cbn [map]; [constructor|].
    inversion KL; inversion OL; subst. constructor; [now apply H|now apply IH2].
  - rewrite obj_js. inversion K as [| | | | |? ND NP KL]; inversion O as [| | | | |? LS OL]; subst. apply listed_iff in LS. rewrite sets_in_order; cbn [app map]; rewrite ?members_keys; try assumption.
    apply obj_back. clear - IH KL OL. induction IH as [|[k x] l H IH IH2]; cbn [js_members map]; [constructor|]. inversion KL; inversion OL; subst. constructor; [split; [reflexivity|now apply H]|now apply IH2].
Qed.
Lemma forall2_perm {A B} (R : A -> B -> Prop) l l' m : Forall2 R l m -> Permutation l l' -> exists m', Permutation m m' /\ Forall2 R l' m'.
Proof.
  intros F P. revert m F. induction P as [|x l l' P IH|x y l|l l1 l2 P1 IH1 P2 IH2]; intros m F.
  - inversion F; subst. exists []. split; constructor.
  - inversion F as [|? z ? m' Rx F']; subst. destruct (IH m' F') as (m2 & Q & G). exists (z :: m2). split; [now constructor|now constructor].
  - inversion F as [|? z ? m' Rx F']; subst. inversion F' as [|? u ? m2 Ry F2]; subst. exists (u :: z :: m2). split; [apply perm_swap|]. now repeat constructor.
  - destruct (IH1 m F) as (m1 & Q1 & G1). destruct (IH2 m1 G1) as (m2 & Q2 & G2). exists m2. split; [now transitivity m1|exact G2].
Qed.
Lemma round_trip_members v : keyed v -> exists v', js_to_json (json_to_js v) = Ok (Some v') /\ same_members v v'.
Proof.
  induction v as [|b|x|t|l IH|l IH] using value_ind2; intros K; try (eexists; split; [reflexivity|constructor]).
  - inversion K as [| | | |? KL|]; subst. clear K.
    assert (E : exists l', Forall2 (fun x y => js_to_json x = Ok (Some y)) (map json_to_js l) l' /\ Forall2 same_members l l').
    { induction IH as [|x l H IH IH2]; [exists []; split; constructor|]. inversion KL; subst. destruct H as (v' & E & S); [assumption|]. destruct IH2 as (l' & F & G); [assumption|].
      exists (v' :: l'). split; constructor; assumption. }
    destruct E as (l' & F & G). exists (VArr l'). split; [now apply arr_back|now constructor].
  - inversion K as [| | | | |? ND NP KL]; subst. rewrite obj_js.
    assert (P : Permutation (js_members l) (fold_left (fun acc kv => js_set acc (fst kv) (snd kv)) (js_members l) [])).
    { symmetry. apply (sets_perm (js_members l) []); cbn [app map]; now rewrite members_keys. }
    assert (E : exists m, Forall2 (fun x y => fst x = fst y /\ js_to_json (snd x) = Ok (Some (snd y))) (js_members l) m /\ Forall2 (fun a b => fst a = fst b /\ same_members (snd a) (snd b)) l m).
    { clear - IH KL. induction IH as [|[k x] l H IH IH2]; [exists []; split; constructor|]. inversion KL; subst. destruct H as (v' & E & S); [assumption|]. destruct IH2 as (l' & F & G); [assumption|].
      exists ((k, v') :: l'). split; constructor; try assumption; split; try reflexivity; assumption. }
    destruct E as (m & F & G). destruct (forall2_perm _ _ _ _ F P) as (m' & Q & F'). exists (VObj m'). split; [now apply obj_back|now apply sm_obj with m].
Qed.
(** Whatever the value, it comes back as some value. *)
Lemma js_set_vals (Q : jsv -> Prop) l k v : Forall (fun kv => Q (snd kv)) l -> Q v -> Forall (fun kv => Q (snd kv)) (js_set l k v).
Proof.
  intros F V. unfold js_set. destruct (text_eqb k (lit "__proto__")); [exact F|]. destruct (has_key k l).
  - induction F as [|[k' v'] l H F IH]; cbn [replace_key]; [constructor|]. destruct (text_eqb k' k); constructor; assumption.
  - assert (A : Forall (fun kv => Q (snd kv)) (l ++ [(k, v)])) by (apply Forall_app; split; [exact F|now repeat constructor]).
    destruct (array_index k) as [n|]; [|exact A]. rewrite Forall_forall in *. intros x I. apply A. apply (Permutation_in x (insert_index_perm n k v l) I).
Qed.
Lemma comes_back v : exists v', js_to_json (json_to_js v) = Ok (Some v').
Proof.
  induction v as [|b|x|t|l IH|l IH] using value_ind2; try (eexists; reflexivity).
  - assert (E : exists l', Forall2 (fun x y => js_to_json x = Ok (Some y)) (map json_to_js l) l').
    { induction IH as [|x l [v' H] IH [l' IH2]]; [exists []; constructor|]. exists (v' :: l'). now constructor. }
    destruct E as (l' & F). exists (VArr l'). now apply arr_back.
  - rewrite obj_js. assert (F : Forall (fun kv => exists v', js_to_json (snd kv) = Ok (Some v')) (fold_left (fun acc kv => js_set acc (fst kv) (snd kv)) (js_members l) [])).
    { assert (M : Forall (fun kv => exists v', js_to_json (snd kv) = Ok (Some v')) (js_members l)) by (clear - IH; induction IH; cbn [js_members map]; constructor; assumption).
      assert (A : Forall (fun kv : text * jsv => exists v', js_to_json (snd kv) = Ok (Some v')) []) by constructor. revert A. generalize (@nil (text * jsv)).
      induction M as [|[k x] m H M IHM]; intros acc A; cbn [fold_left]; [exact A|]. apply IHM. now apply (js_set_vals (fun x => exists v', js_to_json x = Ok (Some v'))). }
    assert (E : exists m, Forall2 (fun x y => fst x = fst y /\ js_to_json (snd x) = Ok (Some (snd y))) (fold_left (fun acc kv => js_set acc (fst kv) (snd kv)) (js_members l) []) m).
    { induction F as [|[k x] m [v' H] F [m' IHF]]; [exists []; constructor|]. exists ((k, v') :: m'). constructor; [now split|exact IHF]. }
    destruct E as [m E]. exists (VObj m). now apply obj_back.
Qed.

(** ** The members of an object, exactly *)
Lemma last_snoc {A} k (p : list (text * A)) j y x : last_binding k (p ++ [(j, y)]) x <-> (k = j /\ x = y) \/ (k <> j /\ last_binding k p x).
Proof.
  split.
  - intros (l1 & l2 & E & NI). destruct l2 as [|z l2 _] using rev_ind.
    + apply app_inj_tail in E. destruct E as [-> E]. injection E as -> ->. now left.
    + right. change (l1 ++ (k, x) :: l2 ++ [z]) with (l1 ++ ((k, x) :: l2) ++ [z]) in E. rewrite app_assoc in E. apply app_inj_tail in E. destruct E as [-> <-].
      rewrite map_app in NI. cbn [map fst] in NI. split; [intros ->; apply NI, in_app_iff; right; now left|]. exists l1, l2. split; [reflexivity|]. intros I2. apply NI, in_app_iff. now left.
  - intros [[-> ->]|[NE (l1 & l2 & -> & NI)]].
    + exists p, []. split; [reflexivity|intros []].
    + exists l1, (l2 ++ [(j, y)]). split; [now rewrite <- app_assoc|]. rewrite map_app. intros IN. apply in_app_iff in IN. destruct IN as [IN|[IN|[]]]; [contradiction|]. cbn [fst] in IN. congruence.
Qed.
Lemma last_exists {A} k (p : list (text * A)) : In k (map fst p) -> exists x, last_binding k p x.
Proof.
  induction p as [|[j y] p IH] using rev_ind; [intros []|]. rewrite map_app. intros IN. apply in_app_iff in IN. destruct (list_eq_dec N.eq_dec k j) as [->|NE].
  - exists y. apply last_snoc. now left.
  - destruct IN as [IN|[IN|[]]]; [|cbn [fst] in IN; congruence]. destruct (IH IN) as [x L]. exists x. apply last_snoc. now right.
Qed.
Lemma replace_keys k v l : map fst (replace_key k v l) = map fst l.
Proof. induction l as [|[k' v'] l IH]; [reflexivity|]. cbn [replace_key]. destruct (text_eqb k' k); [reflexivity|]. cbn [map fst]. now f_equal. Qed.
Lemma replace_in k v l j x : NoDup (map fst l) -> In k (map fst l) -> (In (j, x) (replace_key k v l) <-> (j = k /\ x = v) \/ (j <> k /\ In (j, x) l)).
Proof.
  induction l as [|[k' v'] l IH]; intros ND IK; [destruct IK|]. cbn [replace_key map fst] in *. apply NoDup_cons_iff in ND. destruct ND as [NI ND].
  destruct (text_eqb k' k) eqn:E.
  - apply text_eqb_eq in E. subst k'. cbn [In]. split.
    + intros [Q|IN]; [injection Q as <- <-; now left|]. right. split; [|now right]. intros ->. apply NI. apply (in_map fst) in IN. exact IN.
    + intros [[-> ->]|[NE [Q|IN]]]; [now left|injection Q as <- _; contradiction|now right].
  - assert (NE : k' <> k) by (intros ->; rewrite text_eqb_refl in E; discriminate). destruct IK as [IK|IK]; [contradiction|]. cbn [In]. rewrite (IH ND IK). split.
    + intros [Q|[H|[H1 H2]]]; [injection Q as <- <-; right; split; [exact NE|now left]|now left|right; split; [exact H1|now right]].
    + intros [H|[H1 [Q|H2]]]; [right; now left|now left|right; right; now split].
Qed.
Lemma insert_keys n k v : forall first ns rest l, map fst l = first ++ rest -> Forall2 index_of first ns -> StronglySorted N.lt ns ->
  (forall k n, In k rest -> ~ index_of k n) -> index_of k n -> ~ In k first ->
  exists first' ns', map fst (insert_index n k v l) = first' ++ rest /\ Forall2 index_of first' ns' /\ StronglySorted N.lt ns' /\ (forall m, In m ns' -> m = n \/ In m ns).
Proof.
  induction first as [|k1 first IH]; intros ns rest l EL F SS NX KN NI.
  - inversion F; subst. cbn [app] in EL. exists [k], [n]. split; [|split; [constructor; [exact KN|constructor]|split; [repeat constructor|intros m [<-|[]]; now left]]].
    destruct l as [|[k' v'] l]; cbn [insert_index map fst] in *; [now subst|]. destruct (array_index k') as [n'|] eqn:A.
    + apply array_index_spec in A. exfalso. apply (NX k' n'); [subst rest; now left|exact A].
    + cbn [map fst app]. now rewrite EL.
  - inversion F as [|? n1 ? ns1 K1 F1]; subst. destruct l as [|[k' v'] l]; cbn [map fst app] in EL; [discriminate|]. injection EL as -> EL. cbn [insert_index].
    replace (array_index k1) with (Some n1) by (symmetry; now apply array_index_spec). inversion SS as [|? ? SS1 LT1]; subst. destruct (n1 <? n)%N eqn:L.
    + apply N.ltb_lt in L. destruct (IH ns1 rest l EL F1 SS1 NX KN) as (first' & ns' & E & F' & SS' & NS); [intros H; apply NI; now right|].
      exists (k1 :: first'), (n1 :: ns'). split; [cbn [map fst app]; now f_equal|]. split; [now constructor|]. split.
      * constructor; [exact SS'|]. apply Forall_forall. intros m IM. destruct (NS m IM) as [->|IM']; [exact L|]. rewrite Forall_forall in LT1. now apply LT1.
      * intros m [<-|IM]; [right; now left|]. destruct (NS m IM) as [->|IM']; [now left|right; now right].
    + apply N.ltb_ge in L. assert (LN : (n < n1)%N).
      { apply N.le_neq. split; [exact L|]. intros ->. apply index_show in K1, KN. apply NI. left. destruct K1 as [_ ->]. now destruct KN as [_ ->]. }
      exists (k :: k1 :: first), (n :: n1 :: ns1). split; [cbn [map fst app]; now rewrite EL|]. split; [constructor; [exact KN|now constructor]|]. split; [|intros m [<-|IM]; [now left|now right]].
      constructor; [exact SS|]. constructor; [exact LN|]. eapply Forall_impl; [|exact LT1]. intros m LM. now apply N.lt_trans with n1.
Qed.
Lemma js_set_object p l k v : object_of p l -> object_of (p ++ [(k, v)]) (js_set l k v).
Proof.
  intros (ND & MEM & first & ns & rest & EK & F & SS & NX & BF). unfold js_set.
  assert (BF1 : forall r, by_first (map fst p) r -> by_first (map fst (p ++ [(k, v)])) r).
  { intros r B a j b E. destruct (B a j b E) as (x & y & Q & NI & NB). exists x, (y ++ [k]). rewrite map_app, Q, <- app_assoc. now split. }
  destruct (text_eqb k (lit "__proto__")) eqn:P.
  - apply text_eqb_eq in P. split; [exact ND|]. split; [|exists first, ns, rest; repeat split; try assumption; now apply BF1].
    intros j x. rewrite last_snoc, MEM. split; [intros [H1 H2]; split; [exact H1|right; split; [congruence|exact H2]]|]. intros [H1 [[H2 _]|[_ H2]]]; [congruence|now split].
  - assert (NP : k <> lit "__proto__") by (intros Q; subst; rewrite text_eqb_refl in P; discriminate). clear P. destruct (has_key k l) eqn:H.
    + apply has_key_spec in H. split; [now rewrite replace_keys|]. split; [|exists first, ns, rest; rewrite replace_keys; repeat split; try assumption; now apply BF1].
      intros j x. rewrite (replace_in k v l j x ND H), last_snoc, MEM. split.
      * intros [[-> ->]|[NE [H1 H2]]]; [split; [exact NP|now left]|split; [exact H1|right; now split]].
      * intros [H1 [H2|[H2 H3]]]; [now left|right; now repeat split].
    + assert (NI : ~ In k (map fst l)) by (intros H1; apply has_key_spec in H1; congruence). clear H.
      assert (NIP : ~ In k (map fst p)). { intros H. destruct (last_exists k p H) as [x L]. apply NI, (in_map fst) with (x := (k, x)), MEM. now split. }
      assert (PM : forall l', Permutation l' (l ++ [(k, v)]) -> NoDup (map fst l') /\ forall j x, In (j, x) l' <-> j <> lit "__proto__" /\ last_binding j (p ++ [(k, v)]) x).
      { intros l' PE. split.
        - apply (Permutation_map fst) in PE. apply (Permutation_NoDup (l := k :: map fst l)); [|now constructor]. rewrite PE, map_app. cbn [map fst]. apply Permutation_cons_append.
        - intros j x. rewrite last_snoc. transitivity (In (j, x) (l ++ [(k, v)])); [split; apply Permutation_in; [exact PE|now symmetry]|]. rewrite in_app_iff, MEM. split.
          + intros [[H1 H2]|[Q|[]]]; [|injection Q as <- <-; split; [exact NP|now left]]. split; [exact H1|right; split; [|exact H2]]. intros ->. apply NI, (in_map fst) with (x := (k, x)), MEM. now split.
          + intros [H1 [[-> ->]|[_ H2]]]; [right; now left|left; now split]. }
      destruct (array_index k) as [n|] eqn:A.
      * destruct (PM _ (insert_index_perm n k v l)) as [PM1 PM2]. split; [exact PM1|]. split; [exact PM2|].
        apply array_index_spec in A. destruct (insert_keys n k v first ns rest l EK F SS NX A) as (first' & ns' & E & F' & SS' & _); [intros H; apply NI; rewrite EK; apply in_app_iff; now left|].
        exists first', ns', rest. repeat split; try assumption. now apply BF1.
      * destruct (PM _ (Permutation_refl _)) as [PM1 PM2]. split; [exact PM1|]. split; [exact PM2|]. exists first, ns, (rest ++ [k]). split; [|split; [exact F|split; [exact SS|split]]].
        -- rewrite map_app, EK, <- app_assoc. reflexivity.
        -- intros j m IN. apply in_app_iff in IN. destruct IN as [IN|[<-|[]]]; [now apply NX|]. intros IX. apply array_index_spec in IX. congruence.
        -- intros a j b E. destruct b as [|z b _] using rev_ind.
           ++ apply app_inj_tail in E. destruct E as [_ <-]. exists (map fst p), []. rewrite map_app. split; [reflexivity|]. split; [exact NIP|intros j []].
           ++ change (a ++ j :: b ++ [z]) with (a ++ (j :: b) ++ [z]) in E. rewrite app_assoc in E. apply app_inj_tail in E. destruct E as [E <-]. destruct (BF a j b E) as (x & y & Q & N1 & N2).
              exists x, (y ++ [k]). rewrite map_app, Q, <- app_assoc. split; [reflexivity|]. split; [exact N1|]. intros i IN. apply in_app_iff in IN. destruct IN as [IN|[<-|[]]]; [now apply N2|].
              intros H. apply NIP. rewrite Q. apply in_app_iff. now left.
Qed.
Lemma sets_object m : object_of m (fold_left (fun acc kv => js_set acc (fst kv) (snd kv)) m []).
Proof.
  induction m as [|[k v] m IH] using rev_ind.
  - split; [constructor|]. split; [intros k x; split; [intros []|intros [_ ([|? ?] & l2 & E & _)]; discriminate]|]. exists [], [], []. split; [reflexivity|]. split; [constructor|]. split; [constructor|].
    split; [intros k n []|]. intros [|? ?] k b E; discriminate.
  - rewrite fold_left_app. cbn [fold_left fst snd]. now apply js_set_object.
Qed.
Lemma first_unique ks : forall r r', by_first ks r -> by_first ks r' -> NoDup r -> NoDup r' -> (forall k, In k r <-> In k r') -> r = r'.
Proof.
  induction r as [|k r IH]; intros [|k' r'] B B' ND ND' SAME; [reflexivity| | |].
  - exfalso. apply (proj2 (SAME k')). now left.
  - exfalso. apply (proj1 (SAME k)). now left.
  - apply NoDup_cons_iff in ND, ND'. destruct ND as [NI ND], ND' as [NI' ND'].
    assert (E : k = k').
    { destruct (B [] k r eq_refl) as (x & y & E & NX & NR), (B' [] k' r' eq_refl) as (x' & y' & E' & NX' & NR'). destruct (list_eq_dec N.eq_dec k k') as [Q|NE]; [exact Q|exfalso].
      assert (I1 : ~ In k' x). { apply NR. destruct (proj2 (SAME k') (or_introl eq_refl)) as [Q|Q]; [contradiction|exact Q]. }
      assert (I2 : ~ In k x'). { apply NR'. destruct (proj1 (SAME k) (or_introl eq_refl)) as [Q|Q]; [now symmetry in Q|exact Q]. }
      rewrite E in E'. clear E NX NX' NR NR' B B' SAME IH. revert x' E' I2. induction x as [|u x IHx]; intros [|u' x'] E' I2; cbn [app] in E'; injection E' as E1 E2.
      - contradiction. - apply I2. now left. - apply I1. now left. - apply (IHx (fun H => I1 (or_intror H)) x' E2). intros H. apply I2. now right. }
    subst k'. f_equal. apply IH; try assumption.
    + intros a j b Q. apply (B (k :: a) j b). cbn [app]. now f_equal.
    + intros a j b Q. apply (B' (k :: a) j b). cbn [app]. now f_equal.
    + intros j. split; intros IN.
      * destruct (proj1 (SAME j) (or_intror IN)) as [<-|Q]; [contradiction|exact Q].
      * destruct (proj2 (SAME j) (or_intror IN)) as [<-|Q]; [contradiction|exact Q].
Qed.
Lemma sorted_unique : forall ns ns', StronglySorted N.lt ns -> StronglySorted N.lt ns' -> (forall n, In n ns <-> In n ns') -> ns = ns'.
Proof.
  induction ns as [|n ns IH]; intros [|n' ns'] SS SS' SAME; [reflexivity| | |].
  - exfalso. apply (proj2 (SAME n')). now left.
  - exfalso. apply (proj1 (SAME n)). now left.
  - inversion SS as [|? ? S1 L1]; inversion SS' as [|? ? S2 L2]; subst. rewrite Forall_forall in L1, L2.
    assert (n = n').
    { destruct (proj1 (SAME n) (or_introl eq_refl)) as [Q|Q]; [now symmetry|]. destruct (proj2 (SAME n') (or_introl eq_refl)) as [Q'|Q']; [exact Q'|]. apply L1 in Q'. apply L2 in Q. lia. }
    subst n'. f_equal. apply IH; try assumption. intros m. split; intros IN.
    + destruct (proj1 (SAME m) (or_intror IN)) as [<-|Q]; [apply L1 in IN; lia|exact Q].
    + destruct (proj2 (SAME m) (or_intror IN)) as [<-|Q]; [apply L2 in IN; lia|exact Q].
Qed.
Lemma index_fun k n m : index_of k n -> index_of k m -> n = m.
Proof. intros A B. apply array_index_spec in A, B. congruence. Qed.
Lemma index_in first ns : Forall2 index_of first ns -> forall n, In n ns <-> exists k, In k first /\ index_of k n.
Proof.
  intros F n. induction F as [|k m first ns K F IH]; cbn [In]; [split; [intros []|intros (? & [] & _)]|]. rewrite IH. split.
  - intros [<-|(k' & H1 & H2)]; [exists k; auto|exists k'; auto].
  - intros (k' & [<-|H1] & H2); [left; now apply index_fun with k|right; now exists k'].
Qed.
Lemma index_keys first first' ns : Forall2 index_of first ns -> Forall2 index_of first' ns -> first = first'.
Proof.
  intros F. revert first'. induction F as [|k n first ns K F IH]; intros first' F'; inversion F' as [|? k' ? ? K']; subst; [reflexivity|]. apply index_show in K, K'. f_equal; [|now apply IH].
  destruct K as [_ ->]. now destruct K' as [_ ->].
Qed.
Lemma pairs_unique {A} : forall l l' : list (text * A), NoDup (map fst l) -> map fst l = map fst l' -> (forall k x, In (k, x) l <-> In (k, x) l') -> l = l'.
Proof.
  induction l as [|[k x] l IH]; intros [|[k' x'] l'] ND E SAME; try discriminate; [reflexivity|]. cbn [map fst] in *. injection E as <- E. apply NoDup_cons_iff in ND. destruct ND as [NI ND].
  assert (Q : x' = x).
  { destruct (proj2 (SAME k x') (or_introl eq_refl)) as [Q|Q]; [now injection Q|]. exfalso. apply NI. apply (in_map fst) in Q. exact Q. }
  subst x'. f_equal. apply IH; [exact ND|exact E|]. intros j y. split; intros IN.
  - destruct (proj1 (SAME j y) (or_intror IN)) as [Q|Q]; [|exact Q]. injection Q as <- <-. exfalso. apply NI. apply (in_map fst) in IN. exact IN.
  - destruct (proj2 (SAME j y) (or_intror IN)) as [Q|Q]; [|exact Q]. injection Q as <- <-. exfalso. apply NI. rewrite E. apply (in_map fst) in IN. exact IN.
Qed.
Lemma nodup_parts {A} (a b : list A) : NoDup (a ++ b) -> NoDup b.
Proof. induction a as [|x a IH]; intros ND; [exact ND|]. apply IH. cbn in ND. now apply NoDup_cons_iff in ND. Qed.
Lemma object_unique {A} (p l l' : list (text * A)) : object_of p l -> object_of p l' -> l = l'.
Proof.
  intros (ND & M & f & ns & r & EK & F & SS & NX & B) (ND' & M' & f' & ns' & r' & EK' & F' & SS' & NX' & B').
  assert (SAME : forall k x, In (k, x) l <-> In (k, x) l') by (intros k x; now rewrite M, M').
  assert (KEYS : forall k, In k (f ++ r) <-> In k (f' ++ r')).
  { intros k. rewrite <- EK, <- EK', !in_map_iff. split; intros ([k0 x] & <- & IN); exists (k0, x); (split; [reflexivity|now apply SAME]). }
  assert (IDX : forall f ns r, Forall2 index_of f ns -> (forall k n, In k r -> ~ index_of k n) -> forall k, (In k (f ++ r) /\ exists n, index_of k n) <-> In k f).
  { clear. intros f ns r F NX k. rewrite in_app_iff. split.
    - intros [[H|H] [n Hn]]; [exact H|]. exfalso. now apply (NX k n).
    - intros H. split; [now left|]. induction F as [|k1 n1 f ns K1 F IH]; [destruct H|]. destruct H as [->|H]; [now exists n1|now apply IH]. }
  assert (E1 : ns = ns').
  { apply sorted_unique; [exact SS|exact SS'|]. intros n. rewrite (index_in f ns F), (index_in f' ns' F'). split; intros (k & H1 & H2); exists k; (split; [|exact H2]).
    - apply (IDX f' ns' r' F' NX'). split; [apply KEYS, in_app_iff; now left|now exists n].
    - apply (IDX f ns r F NX). split; [apply KEYS, in_app_iff; now left|now exists n]. }
  subst ns'. assert (E2 := index_keys _ _ _ F F'). subst f'. assert (NDr := ND). assert (NDr' := ND'). rewrite EK in NDr. rewrite EK' in NDr'.
  assert (E3 : r = r').
  { apply (first_unique _ _ _ B B'); [now apply nodup_parts in NDr|now apply nodup_parts in NDr'|].
    assert (HALF : forall r r', NoDup (f ++ r) -> (forall k, In k (f ++ r) -> In k (f ++ r')) -> forall k, In k r -> In k r').
    { clear. intros r r' ND H k IN. assert (Q := H k (proj2 (in_app_iff _ _ _) (or_intror IN))). apply in_app_iff in Q. destruct Q as [Q|Q]; [|exact Q]. exfalso.
      induction f as [|y f IH]; [destruct Q|]. cbn in ND. apply NoDup_cons_iff in ND. destruct ND as [NI ND]. destruct Q as [->|Q]; [apply NI, in_app_iff; now right|].
      apply in_split in Q. destruct Q as (a & b & ->). rewrite <- app_assoc in ND. cbn [app] in ND. apply nodup_parts in ND. apply NoDup_cons_iff in ND. apply (proj1 ND), in_app_iff. now right. }
    intros k. split; [apply (HALF r r' NDr)|apply (HALF r' r NDr')]; intros j; apply KEYS. }
  subst r'. apply pairs_unique; [exact ND|now rewrite EK, EK'|exact SAME].
Qed.
Lemma becomes_unique v : forall j j', becomes v j -> becomes v j' -> j = j'.
Proof.
  induction v as [|b|x|t|l IH|l IH] using value_ind2; intros j j' B B'; try (inversion B; inversion B'; subst; reflexivity).
  - inversion B as [| | | |? a F|]; inversion B' as [| | | |? a' F'|]; subst. f_equal. clear B B'. revert a a' F F'. induction IH as [|x l H IH IH2]; intros a a' F F'; inversion F; inversion F'; subst; [reflexivity|]. f_equal; [now apply H|now apply IH2].
  - inversion B as [| | | | |? m a F O]; inversion B' as [| | | | |? m' a' F' O']; subst. f_equal. assert (m = m').
    { clear - IH F F'. revert m m' F F'. induction IH as [|[k x] l H IH IH2]; intros m m' F F'; inversion F as [|? [k1 y1] ? ? [K1 Y1]]; inversion F' as [|? [k2 y2] ? ? [K2 Y2]]; subst; [reflexivity|]. cbn [fst snd] in *. subst. f_equal; [f_equal; now apply H|now apply IH2]. }
    subst m'. now apply object_unique with m.
Qed.
Lemma becomes_js v : becomes v (json_to_js v).
Proof.
  induction v as [|b|x|t|l IH|l IH] using value_ind2; try constructor.
  - induction IH as [|x l H IH IH2]; cbn [map]; constructor; assumption.
  - rewrite obj_js. apply bc_obj with (js_members l); [|apply sets_object]. induction IH as [|[k x] l H IH IH2]; cbn [js_members map]; constructor; [now split|exact IH2].
Qed.
Lemma becomes_only v j : json_to_js v = j <-> becomes v j.
Proof. split; [intros <-; apply becomes_js|]. intros B. apply (becomes_unique v); [apply becomes_js|exact B]. Qed.
Section JsInd.
  Variable P : jsv -> Prop.
  Hypothesis Hundef : P JsUndef. Hypothesis Hother : P JsOther.
  Hypothesis Hnull : P JsNull. Hypothesis Hbool : forall b, P (JsBool b). Hypothesis Hnum : forall x, P (JsNum x).
  Hypothesis Hstr : forall t, P (JsStr t). Hypothesis Harr : forall l, Forall P l -> P (JsArr l).
  Hypothesis Hobj : forall l, Forall (fun kv => P (snd kv)) l -> P (JsObj l).
  Fixpoint jsv_ind2 (v : jsv) : P v :=
    match v with
    | JsUndef => Hundef | JsOther => Hother | JsNull => Hnull | JsBool b => Hbool b | JsNum x => Hnum x | JsStr t => Hstr t
    | JsArr l => Harr l ((fix go l := match l return Forall P l with [] => Forall_nil _ | x :: l' => Forall_cons _ (jsv_ind2 x) (go l') end) l)
    | JsObj l => Hobj l ((fix go l := match l return Forall (fun kv => P (snd kv)) l with [] => Forall_nil _ | kv :: l' => Forall_cons _ (jsv_ind2 (snd kv)) (go l') end) l)
    end.
End JsInd.
Lemma read_back j : forall y, js_to_json j = Ok (Some y) <-> read_as j y.
Proof.
  induction j as [| | |b|x|t|l IH|l IH] using jsv_ind2; intros y; try (split; [cbn [js_to_json]; intros E; injection E as <-; constructor|intros R; inversion R; reflexivity]);
    try (split; [discriminate|intros R; inversion R]).
  - split.
    + cbn [js_to_json]. match goal with |- context [map_res ?f l] => destruct (map_res f l) as [vs| | |] eqn:E end; cbn [bind]; try discriminate. intros Q; injection Q as <-. constructor.
      revert vs E. induction IH as [|x l H IH IH2]; intros vs E; cbn [map_res] in E; [injection E as <-; constructor|]. destruct (js_to_json x) as [[z|]| | |] eqn:X; cbn [bind] in E; try discriminate.
      match type of E with context [map_res ?f l] => destruct (map_res f l) as [zs| | |] eqn:M end; cbn [bind] in E; try discriminate. injection E as <-. constructor; [now apply H|now apply IH2].
    + intros R. inversion R as [| | | |? vs F|]; subst. apply arr_back. clear R. revert vs F. induction IH as [|x l H IH IH2]; intros vs F; inversion F; subst; constructor; [now apply H|now apply IH2].
  - split.
    + cbn [js_to_json]. match goal with |- context [map_res ?f l] => destruct (map_res f l) as [vs| | |] eqn:E end; cbn [bind]; try discriminate. intros Q; injection Q as <-. constructor.
      revert vs E. induction IH as [|[k x] l H IH IH2]; intros vs E; cbn [map_res] in E; [injection E as <-; constructor|]. cbn [fst snd] in *. destruct (js_to_json x) as [[z|]| | |] eqn:X; cbn [bind] in E; try discriminate.
      match type of E with context [map_res ?f l] => destruct (map_res f l) as [zs| | |] eqn:M end; cbn [bind] in E; try discriminate. injection E as <-. constructor; [split; [reflexivity|now apply H]|now apply IH2].
    + intros R. inversion R as [| | | | |? vs F]; subst. apply obj_back. clear R. revert vs F. induction IH as [|x l H IH IH2]; intros vs F; inversion F as [|? ? ? ? [K1 K2]]; subst; constructor; [split; [exact K1|now apply H]|now apply IH2].
Qed.
Lemma reads_undefined j : js_to_json j = Ok None <-> j = JsUndef \/ j = JsOther.
Proof.
  split; [|intros [-> | ->]; reflexivity]. destruct j as [| | | | |l|l|]; cbn [js_to_json]; try discriminate; auto;
    match goal with |- context [map_res ?f l] => destruct (map_res f l) end; discriminate.
Qed.

(** ** Functions *)
Lemma js_run_grows p : forall s f r s' t, sc_stack s = f :: r -> js_run p s = Ok (s', t) ->
  exists vs, s' = Scope (sc_idx s) (Frame (fr_name f) (fr_vars f ++ vs) (fr_out f) :: r) (sc_secs s).
Proof.
  induction p as [t0|n k IH|n v p IH]; intros s f r s' t ST E; cbn [js_run] in E.
  - injection E as <- <-. exists []. rewrite app_nil_r. destruct s as [i st secs], f. cbn in *. now subst.
  - now apply (IH _ _ _ _ _ _ ST E).
  - destruct (js_to_json v) as [[y|]| | |]; try discriminate; [|now apply (IH _ _ _ _ _ ST E)]. rewrite ST in E. apply (IH _ (add_var n y f) r) in E; [|reflexivity].
    destruct E as [vs ->]. cbn [set_stack sc_idx sc_secs add_var fr_name fr_vars fr_out]. exists ((n, y) :: vs). now rewrite <- app_assoc.
Qed.
Lemma js_run_no_err p : forall s e, js_run p s <> Err e.
Proof.
  induction p as [t0|n k IH|n v p IH]; intros s e; cbn [js_run]; [discriminate|apply IH|]. destruct (js_to_json v) as [[y|]| | |]; try discriminate; [|apply IH]. destruct (sc_stack s); [discriminate|apply IH].
Qed.
Lemma js_args_err l s args e : map_res (js_arg l s) args = Err e -> exists k, e = tb l k.
Proof.
  assert (One : forall a e, js_arg l s a = Err e -> exists k, e = tb l k).
  { intros a e0. unfold js_arg. destruct a as [n|t|z|t]; try discriminate; [destruct (get_variable n (sc_stack s)); [discriminate|]|]; intros E; injection E as <-; eauto. }
  revert e. induction args as [|a args IH]; intros e; cbn [map_res]; [discriminate|].
  destruct (js_arg l s a) as [v|e0| |] eqn:A; cbn [bind]; try discriminate; [|intros E; injection E as <-; now apply One in A].
  match goal with |- context [bind ?m _] => destruct m as [vs|e0| |] eqn:M end; cbn [bind]; try discriminate. intros E; injection E as <-. now apply IH.
Qed.
Lemma js_plugin_ok n code args : plugin_ok {| pf_name := n; pf_exec := js_exec code args; pf_call := None |}.
Proof.
  intros l s NE. cbn [pf_exec]. unfold js_exec. destruct (map_res (js_arg l s) args) as [vs|e| |] eqn:A; cbn [bind]; [|now apply js_args_err in A|exact I|exact I].
  destruct (sc_stack s) as [|f r] eqn:ST; [contradiction|]. destruct (js_run (code vs) s) as [[s' t]|e| |] eqn:R; cbn [bind fst snd]; try exact I; [|now apply js_run_no_err in R].
  apply (js_run_grows _ _ f r) in R; [|exact ST]. destruct R as [nv ->].
  destruct t as [t|]; cbn [output sc_stack set_stack sc_idx sc_secs add_out fr_name fr_vars fr_out].
  - split; [reflexivity|]. split; [exists []; now rewrite app_nil_r|]. do 3 eexists. split; [reflexivity|]. split; [reflexivity|].
    unfold grown. cbn [fr_name fr_vars fr_out]. split; [reflexivity|]. split; eexists; reflexivity.
  - split; [reflexivity|]. split; [exists []; now rewrite app_nil_r|]. do 3 eexists. split; [reflexivity|]. split; [reflexivity|].
    unfold grown. cbn [fr_name fr_vars fr_out]. split; [reflexivity|]. split; [eauto|]. exists []. now rewrite app_nil_r.
Qed.

(** ** Names do not matter outside conditionals *)
Lemma call_all_loc n t : t_loc (call_all n t) = t_loc t.
Proof. unfold call_all. destruct t as [[r|f|v] l]; try reflexivity. now destruct f. Qed.
Lemma current_called n h site toks s : current (World h site (map (call_all n) toks)) s = option_map (call_all n) (current (World h site toks) s).
Proof. unfold current. destruct (sc_idx s); [reflexivity|]. cbn [w_toks]. apply nth_error_map. Qed.
Lemma with_current_called n h site toks s (k : loc -> xres scope) :
  with_current (World h site (map (call_all n) toks)) s k = with_current (World h site toks) s k.
Proof. unfold with_current. rewrite current_called. destruct (current (World h site toks) s); cbn [option_map]; [now rewrite call_all_loc|reflexivity]. Qed.
Lemma next_called n h site toks s : next_token (World h site (map (call_all n) toks)) s =
  match next_token (World h site toks) s with Some (t, s1) => Some (call_all n t, s1) | None => None end.
Proof. unfold next_token. cbn [w_toks]. rewrite nth_error_map. now destruct (nth_error toks (sc_idx s)). Qed.
Lemma next_in h site toks s t s1 : next_token (World h site toks) s = Some (t, s1) -> In t toks.
Proof. unfold next_token. cbn [w_toks]. destruct (nth_error toks (sc_idx s)) eqn:E; [|discriminate]. intros H; injection H as <- _. now apply nth_error_In in E. Qed.
Section Calling.
  Variables (nm : option text) (h : host) (site : node) (toks : list ltoken).
  Hypothesis NC : Forall (fun t => ~ conditional t) toks.
  Let w := World h site toks. Let w' := World h site (map (call_all nm) toks).
  Lemma block_called ex ex' height eof : (forall t s, In t toks -> ex' (call_all nm t) s = ex t s) ->
    forall k s, run_block ex' w' height eof k s = run_block ex w height eof k s.
  Proof.
    intros EX. induction k as [|k IH]; intros s; cbn [run_block]; [reflexivity|]. destruct (Nat.leb _ height); [reflexivity|]. unfold w'. rewrite next_called. fold w.
    destruct (next_token w s) as [[t s1]|] eqn:N; [|reflexivity]. apply next_in in N. rewrite EX by exact N. destruct (ex t s1); cbn [bind]; try reflexivity. apply IH.
  Qed.
  Lemma loop_called ex ex' name wp eof : (forall t s, In t toks -> ex' (call_all nm t) s = ex t s) ->
    forall vs s, for_loop ex' w' name wp eof vs s = for_loop ex w name wp eof vs s.
  Proof.
    intros EX. induction vs as [|v vs IH]; intros s; cbn [for_loop]; [reflexivity|]. rewrite (block_called ex ex') by exact EX.
    change (length (w_toks w')) with (length (map (call_all nm) toks)). rewrite map_length. change (length toks) with (length (w_toks w)).
    destruct (run_block ex w _ eof _ _); cbn [bind]; try reflexivity. apply IH.
  Qed.
  Lemma exec_called n : forall t s, In t toks -> exec n w' (call_all nm t) s = exec n w t s.
  Proof.
    induction n as [|n IH]; intros t s IN; [reflexivity|].
    assert (X := proj1 (Forall_forall _ _) NC t IN). destruct t as [[r|f|v] l]; try reflexivity.
    cbn [exec call_all t_inner]. destruct f; cbn [call_all t_inner exec_fn]; try reflexivity; try (exfalso; apply X; exact I);
      try (unfold w'; rewrite with_current_called; reflexivity).
    - unfold w'. rewrite with_current_called. fold w. unfold with_current. destruct (current w s); [|reflexivity].
      change (for_values (World h site (map (call_all nm) toks))) with (for_values w). destruct (map_err _ _); cbn [bind]; try reflexivity. apply loop_called. exact IH.
  Qed.
  Lemma run_called s : run w' s = run w s.
  Proof.
    unfold run. change (length (w_toks w')) with (length (map (call_all nm) toks)). rewrite map_length. change (length toks) with (length (w_toks w)).
    generalize (S (length (w_toks w))) at 1 3. intros k. revert s. induction k as [|k IH]; intros s; cbn [run_all]; [reflexivity|]. unfold w' at 1. rewrite next_called. fold w.
    destruct (next_token w s) as [[t s1]|] eqn:N; [|reflexivity]. apply next_in in N. rewrite exec_called by exact N. destruct (exec _ w t s1); cbn [bind]; try reflexivity. apply IH.
  Qed.
End Calling.

(** ** Naming the functions that have no name *)
Section Naming.
  Variables (nm : text) (h : host) (site : node) (toks : list ltoken).
  Hypothesis NE : nm <> lit "else" /\ nm <> lit "end".
  Hypothesis PL : plugins_of (fun p => pf_name p <> Some (lit "else") /\ pf_name p <> Some (lit "end")) toks.
  Let w := World h site toks. Let w' := World h site (map (call_all (Some nm)) toks).
  (** The same outcome, or the panic for want of a name. *)
  Definition same_but (a b : xres scope) : Prop := a = Panic Pn_js_name \/ b = a.
  Lemma same_bind a b (k k' : scope -> xres scope) : same_but a b -> (forall s, same_but (k s) (k' s)) -> same_but (let? s := a in k s) (let? s := b in k' s).
  Proof. intros [-> | ->] K; [now left|]. destruct a; cbn [bind]; try (now right). apply K. Qed.
  Lemma block_named ex ex' height eof : (forall t s, In t toks -> same_but (ex t s) (ex' (call_all (Some nm) t) s)) ->
    forall k s, same_but (run_block ex w height eof k s) (run_block ex' w' height eof k s).
  Proof.
    intros EX. induction k as [|k IH]; intros s; cbn [run_block]; [now right|]. destruct (Nat.leb _ height); [now right|]. unfold w'. rewrite next_called. fold w.
    destruct (next_token w s) as [[t s1]|] eqn:N; [|now right]. apply next_in in N. apply same_bind; [now apply EX|exact IH].
  Qed.
  Lemma cond_named ex ex' height eof : (forall t s, In t toks -> same_but (ex t s) (ex' (call_all (Some nm) t) s)) ->
    forall k c s, same_but (run_cond ex w height eof k c s) (run_cond ex' w' height eof k c s).
  Proof.
    intros EX. induction k as [|k IH]; intros c s; cbn [run_cond]; [now right|]. destruct (Nat.leb _ height); [now right|]. unfold w'. rewrite next_called. fold w. fold w'.
    destruct (next_token w s) as [[t s1]|] eqn:N; [|now right]. apply next_in in N.
    assert (T : token_fn_name t = Panic Pn_js_name \/ exists x y, token_fn_name t = Ok x /\ token_fn_name (call_all (Some nm) t) = Ok y /\
      is_name y (lit "else") = is_name x (lit "else") /\ is_name y (lit "end") = is_name x (lit "end")).
    { destruct t as [[r|f|v] l]; try (right; do 2 eexists; repeat split; fail).
      destruct f as [label custom|v fmt| |label custom|v kk|ff|v|v file|label|v|cc aa bb|p]; try (right; do 2 eexists; repeat split; fail).
      unfold token_fn_name, call_all. cbn [t_inner func_name called pf_name]. destruct (PL p l N) as [P1 P2].
      destruct (pf_name p) as [n|]; [right|now left]. exists (Some n), (Some nm). split; [reflexivity|]. split; [reflexivity|].
      cbn [is_name]. destruct NE. split; match goal with |- text_eqb ?a ?x = text_eqb ?b ?x => replace (text_eqb a x) with false; [replace (text_eqb b x) with false; [reflexivity|]|] end;
        symmetry; apply not_true_is_false; intros Q; apply text_eqb_eq in Q; congruence. }
    destruct T as [T|(x & y & T1 & T2 & E1 & E2)]; [rewrite T; cbn [bind]; now left|]. rewrite T1, T2. cbn [bind]. rewrite E1, E2.
    destruct (c || _); [|apply IH]. apply same_bind; [now apply EX|]. intros s2. apply IH.
  Qed.
  Lemma loop_named ex ex' name wp eof : (forall t s, In t toks -> same_but (ex t s) (ex' (call_all (Some nm) t) s)) ->
    forall vs s, same_but (for_loop ex w name wp eof vs s) (for_loop ex' w' name wp eof vs s).
  Proof.
    intros EX. induction vs as [|v vs IH]; intros s; cbn [for_loop]; [now right|].
    change (length (w_toks w')) with (length (map (call_all (Some nm)) toks)). rewrite map_length. change (length toks) with (length (w_toks w)).
    apply same_bind; [now apply block_named|exact IH].
  Qed.
  Lemma exec_named n : forall t s, In t toks -> same_but (exec n w t s) (exec n w' (call_all (Some nm) t) s).
  Proof.
    induction n as [|n IH]; intros t s IN; [now right|]. destruct t as [[r|f|v] l]; try (now right).
    assert (LW : length (w_toks w') = length (w_toks w)) by (unfold w', w; cbn [w_toks]; apply map_length).
    cbn [exec call_all t_inner]. destruct f as [label custom|v fmt| |label custom|v kk|ff|v|v file|label|v|cc aa bb|p]; cbn [call_all t_inner exec_fn called pf_exec]; try (now right);
      try (unfold w'; rewrite with_current_called; now right); unfold w'; rewrite with_current_called; fold w; fold w'; unfold with_current; destruct (current w s) as [t|]; try (now right).
    - change (for_values w' ff (sc_stack s)) with (for_values w ff (sc_stack s)). destruct (map_err _ _); cbn [bind]; try (now right). now apply loop_named.
    - rewrite LW. now apply cond_named.
    - rewrite LW. destruct (ok_or _ _); cbn [bind]; try (now right). destruct (ok_or (eval_input bb _) _); cbn [bind]; try (now right). now apply cond_named.
  Qed.
  Lemma run_named s : run w s = Panic Pn_js_name \/ run w' s = run w s.
  Proof.
    unfold run. change (length (w_toks w')) with (length (map (call_all (Some nm)) toks)). rewrite map_length. change (length toks) with (length (w_toks w)).
    generalize (S (length (w_toks w))) at 1 3 5. intros k. change (same_but (run_all k (S (length (w_toks w))) w s) (run_all k (S (length (w_toks w))) w' s)).
    revert s. induction k as [|k IH]; intros s; cbn [run_all]; [now right|]. unfold w' at 1. rewrite next_called. fold w.
    destruct (next_token w s) as [[t s1]|] eqn:N; [|now right]. apply next_in in N. apply same_bind; [now apply exec_named|exact IH].
  Qed.
End Naming.

(** ** Conditionals *)
(** A function without a name stops the program in any conditional. *)
Lemma nameless_panics h site l c p lp rest f r secs b : pf_name p = None -> holds c (map fr_vars (f :: r)) = Ok b ->
  run (World h site (LTok (TFun (test_fn c)) l :: LTok (TFun (FPlugin p)) lp :: rest)) (Scope 0 (f :: r) secs) = Panic Pn_js_name.
Proof.
  intros PN H. set (w := World h site _). set (s1 := set_idx 1 (Scope 0 (f :: r) secs)).
  assert (N1 : next_token w (Scope 0 (f :: r) secs) = Some (LTok (TFun (test_fn c)) l, s1)) by reflexivity.
  assert (C : current w s1 = Some (LTok (TFun (test_fn c)) l)) by reflexivity.
  unfold run. cbn [run_all]. rewrite N1.
  rewrite (cond_enter (length (w_toks w)) w l c s1 f r C eq_refl), H. cbn [run_cond].
  replace (Nat.leb _ _) with false by (symmetry; apply Nat.leb_gt; cbn; lia).
  match goal with |- context [next_token w ?s] => assert (N2 : next_token w s = Some (LTok (TFun (FPlugin p)) lp, set_idx 2 s)) by reflexivity; rewrite N2 end.
  unfold token_fn_name. cbn [t_inner func_name]. rewrite PN. reflexivity.
Qed.
(** A function with a name does the same inside and outside. *)
Lemma named_inside h site l c p beh lp l' f r secs o new : behaves p beh -> holds c (map fr_vars (f :: r)) = Ok true ->
  beh lp (map fr_vars (f :: r)) secs = Ok (o, new) -> beh lp ([] :: map fr_vars (f :: r)) secs = Ok (o, new) ->
  run (World h site [LTok (TFun (FPlugin p)) lp]) (Scope 0 (f :: r) secs) =
    Ok (Scope 1 (Frame (fr_name f) (fr_vars f ++ new) (fr_out f ++ o) :: r) secs) /\
  run (World h site [LTok (TFun (test_fn c)) l; LTok (TFun (FPlugin p)) lp; LTok (TFun (FEnd (test_name c) false)) l']) (Scope 0 (f :: r) secs) =
    Ok (Scope 3 (Frame (fr_name f) (fr_vars f) (fr_out f ++ o) :: r) secs).
Proof.
  intros B H E1 E2. split.
  - pose proof (run_single h site (IPlugin lp p beh) f r secs B) as A. cbn [render rs_scopes rs_secs] in A. rewrite E1 in A. cbn [reffect bind_vars rs_scopes rs_secs] in A.
    destruct A as (nv & V & A). cbn [map] in V. injection V as V. apply app_inv_head in V. subst nv. exact A.
  - refine (branch_alone h site l c [IPlugin lp p beh] l' f r secs true o (RState (bind_vars new ([] :: map fr_vars (f :: r))) secs) (conj B I) H _).
    unfold render_all. cbn [rseq render rs_scopes rs_secs]. rewrite E2. cbn [reffect rs_scopes rs_secs rthen]. now rewrite app_nil_r.
Qed.
Lemma named_skipped h site l c p beh lp l' f r secs : behaves p beh -> holds c (map fr_vars (f :: r)) = Ok false ->
  run (World h site [LTok (TFun (test_fn c)) l; LTok (TFun (FPlugin p)) lp; LTok (TFun (FEnd (test_name c) false)) l']) (Scope 0 (f :: r) secs) =
    Ok (Scope 3 (f :: r) secs).
Proof.
  intros B H. pose proof (branch_alone h site l c [IPlugin lp p beh] l' f r secs false [] (RState [] secs) (conj B I) H (conj eq_refl (conj eq_refl eq_refl))) as A.
  cbn zeta in A. cbn [flat flat_map app length] in A. rewrite A. rewrite app_nil_r. now destruct f.
Qed.
Lemma named_fails h site l c p beh lp l' f r secs e : behaves p beh -> holds c (map fr_vars (f :: r)) = Ok true ->
  beh lp (map fr_vars (f :: r)) secs = Err e -> beh lp ([] :: map fr_vars (f :: r)) secs = Err e ->
  run (World h site [LTok (TFun (FPlugin p)) lp]) (Scope 0 (f :: r) secs) = Err (tb lp e) /\
  run (World h site [LTok (TFun (test_fn c)) l; LTok (TFun (FPlugin p)) lp; LTok (TFun (FEnd (test_name c) false)) l']) (Scope 0 (f :: r) secs) = Err (tb lp e).
Proof.
  intros B H E1 E2. split.
  - pose proof (run_single h site (IPlugin lp p beh) f r secs B) as A. cbn [render rs_scopes rs_secs] in A. rewrite E1 in A. exact A.
  - pose proof (run_single h site (IIf l c [IPlugin lp p beh] l') f r secs (conj B I)) as A. cbn [render rs_scopes rs_secs] in A. rewrite H in A. unfold rscope in A. cbn [rseq render rs_scopes rs_secs] in A.
    rewrite E2 in A. exact A.
Qed.

(** ** Setting and getting *)
Lemma set_then_get n j y s f r k : read_as j y -> ~ In c_dot n -> sc_stack s = f :: r -> ~ In n (map fst (fr_vars f)) ->
  visible n (add_var n y f :: r) y /\ exists j', becomes y j' /\
  js_run (JsSet n j (JsGet n k)) s = js_run (k j') (set_stack (add_var n y f :: r) s).
Proof.
  intros R ND ST NI.
  assert (V : visible n (add_var n y f :: r) y).
  { exists [], (add_var n y f), r. split; [reflexivity|]. split; [|constructor]. cbn [add_var fr_vars]. exists (fr_vars f), []. now split. }
  split; [exact V|]. exists (json_to_js y). split; [apply becomes_js|]. cbn [js_run]. apply read_back in R. rewrite R, ST. cbn [set_stack sc_stack].
  replace (get_variable n (add_var n y f :: r)) with (Some y); [reflexivity|]. symmetry. apply (get_variable_iff n [] _ y ND); [constructor|]. exists y. split; [exact V|constructor].
Qed.
Lemma get_unset n s k : ~ In c_dot n -> Forall (fun f => ~ In n (map fst (fr_vars f))) (sc_stack s) -> js_run (JsGet n k) s = js_run (k JsUndef) s.
Proof. intros ND F. cbn [js_run]. replace (get_variable n (sc_stack s)) with (@None value); [reflexivity|]. symmetry. now apply (get_variable_none n [] _ ND); [constructor|]. Qed.
Lemma set_undefined n j p s : j = JsUndef \/ j = JsOther -> js_run (JsSet n j p) s = js_run p s.
Proof. intros H. apply reads_undefined in H. cbn [js_run]. now rewrite H. Qed.

(** ** Arguments *)
Lemma js_arg_given l s a j : given (sc_stack s) a j -> js_arg l s a = Ok j.
Proof.
  intros G. destruct G as [t|z|h p v0 v j Hh Hp V F B]; try reflexivity. cbn [js_arg].
  replace (get_variable (dotted h p) (sc_stack s)) with (Some v) by (symmetry; apply (get_variable_iff h p _ v Hh Hp); now exists v0). apply becomes_only in B. now rewrite B.
Qed.
Lemma js_args_given l s args js : Forall2 (given (sc_stack s)) args js -> map_res (js_arg l s) args = Ok js.
Proof. intros F. induction F as [|a j args js G F IH]; [reflexivity|]. cbn [map_res]. rewrite (js_arg_given _ _ _ _ G). cbn [bind]. now rewrite IH. Qed.
Lemma js_arg_faulty l s a e : faulty (sc_stack s) a e -> js_arg l s a = Err (tb l e).
Proof. intros G. destruct G as [t|h p Hh Hp N]; [reflexivity|]. cbn [js_arg]. apply (get_variable_none h p _ Hh Hp) in N. now rewrite N. Qed.
Lemma js_call_fault code args1 js1 a e args2 l s : Forall2 (given (sc_stack s)) args1 js1 -> faulty (sc_stack s) a e ->
  js_exec code (args1 ++ a :: args2) l s = Err (tb l e).
Proof.
  intros F Y. unfold js_exec. replace (map_res (js_arg l s) (args1 ++ a :: args2)) with (Err (tb l e) : res (traceback process_error) (list jsv)); [reflexivity|].
  symmetry. induction F as [|b j args1 js1 G F IH]; cbn [app map_res]; [now rewrite (js_arg_faulty _ _ _ _ Y)|]. rewrite (js_arg_given _ _ _ _ G). cbn [bind]. now rewrite IH.
Qed.
Lemma js_arg_cases st a : (exists j, given st a j) \/ (exists e, faulty st a e).
Proof.
  destruct a as [n|t|z|t]; [|left; eexists; apply gv_str|right; eexists; apply fy_ident|left; eexists; apply gv_int].
  destruct (name_parts n) as (h & p & -> & Hh & Hp). destruct (get_variable (dotted h p) st) as [v|] eqn:G.
  - left. apply (get_variable_iff h p _ v Hh Hp) in G. destruct G as (v0 & V & F). exists (json_to_js v). apply gv_var with v0 v; try assumption. apply becomes_js.
  - right. apply (get_variable_none h p _ Hh Hp) in G. eexists. now constructor.
Qed.
Lemma js_args_cases st args : (exists js, Forall2 (given st) args js) \/ (exists args1 js1 a args2 e, args = args1 ++ a :: args2 /\ Forall2 (given st) args1 js1 /\ faulty st a e).
Proof.
  induction args as [|a args IH]; [left; exists []; constructor|]. destruct (js_arg_cases st a) as [[j G]|[e Y]].
  - destruct IH as [[js F]|(args1 & js1 & b & args2 & e & -> & F & Y)]; [left; exists (j :: js); now constructor|]. right. exists (a :: args1), (j :: js1), b, args2, e. split; [reflexivity|]. split; [now constructor|exact Y].
  - right. exists [], [], a, args, e. split; [reflexivity|]. split; [constructor|exact Y].
Qed.
Lemma js_call code args js l s f r s' t : Forall2 (given (sc_stack s)) args js -> sc_stack s = f :: r -> js_run (code js) s = Ok (s', t) ->
  exists vs, js_exec code args l s = Ok (Scope (sc_idx s) (Frame (fr_name f) (fr_vars f ++ vs) (fr_out f ++ match t with Some t => enc t | None => [] end) :: r) (sc_secs s)) /\
    s' = Scope (sc_idx s) (Frame (fr_name f) (fr_vars f ++ vs) (fr_out f) :: r) (sc_secs s).
Proof.
  intros F ST R. unfold js_exec. rewrite (js_args_given l _ _ _ F). cbn [bind]. rewrite R. cbn [bind fst snd]. apply (js_run_grows _ _ f r) in R; [|exact ST]. destruct R as [vs ->]. exists vs. split; [|reflexivity].
  destruct t as [t|]; [reflexivity|]. now rewrite app_nil_r.
Qed.

(** ** What a function does, as a function of the variables *)
Fixpoint js_effect (p : js_prog) (sc : scopes) : res process_error (list (text * value) * option text) :=
  match p with
  | JsReturn t => Ok ([], t)
  | JsGet n k => js_effect (k (opt_to_js (get_variable n (frames sc)))) sc
  | JsSet n v p' =>
      match js_to_json v with
      | Ok None => js_effect p' sc
      | Ok (Some y) => match js_effect p' (bind_vars [(n, y)] sc) with Ok (new, t) => Ok ((n, y) :: new, t) | Err e => Err e | Panic q => Panic q | OutOfFuel => OutOfFuel end
      | Err _ => OutOfFuel
      | Panic q => Panic q
      | OutOfFuel => OutOfFuel
      end
  end.
Definition js_given (sc : scopes) (a : rawarg) : res process_error jsv :=
  match a with
  | AVar n => match get_variable n (frames sc) with Some v => Ok (json_to_js v) | None => Err (XE_UndefinedVariable n) end
  | AStr t => Ok (JsStr t)
  | AInt z => Ok (JsNum (FFin z 0))
  | AIdent _ => Err XE_StackError
  end.
Definition js_beh (code : js_code) (args : list rawarg) : behaviour := fun _ sc _ =>
  let? vs := map_res (js_given sc) args in
  let? nt := js_effect (code vs) sc in
  Ok (match snd nt with Some t => enc t | None => [] end, fst nt).
Lemma js_run_effect p : forall s f r, sc_stack s = f :: r ->
  js_run p s = match js_effect p (map fr_vars (f :: r)) with
               | Ok (new, t) => Ok (Scope (sc_idx s) (Frame (fr_name f) (fr_vars f ++ new) (fr_out f) :: r) (sc_secs s), t)
               | Err _ => OutOfFuel | Panic q => Panic q | OutOfFuel => OutOfFuel
               end.
Proof.
  induction p as [t0|n k IH|n v p IH]; intros s f r ST; cbn [js_run js_effect].
  - rewrite app_nil_r. destruct s as [i st secs], f. cbn in *. now subst.
  - rewrite get_variable_vars, <- ST. rewrite (IH _ s f r ST). now rewrite <- ST.
  - destruct (js_to_json v) as [[y|]| | |]; try reflexivity; [|now apply IH]. rewrite ST. rewrite (IH _ (add_var n y f) r) by reflexivity.
    cbn [map add_var fr_vars bind_vars set_stack sc_idx sc_secs fr_name fr_out]. destruct (js_effect p _) as [[new t]| | |]; try reflexivity. now rewrite <- app_assoc.
Qed.
Lemma js_effect_ok p : forall sc e, js_effect p sc <> Err e.
Proof.
  induction p as [t0|n k IH|n v p IH]; intros sc e; cbn [js_effect]; [discriminate|apply IH|]. destruct (js_to_json v) as [[y|]| | |]; try discriminate; [|apply IH].
  specialize (IH (bind_vars [(n, y)] sc)). destruct (js_effect p _) as [[new t]| | |]; try discriminate. intros E. now destruct (IH e0).
Qed.
Lemma js_given_arg l s args : map_res (js_arg l s) args = map_err (tb l) (map_res (js_given (map fr_vars (sc_stack s))) args).
Proof.
  induction args as [|a args IH]; cbn [map_res]; [reflexivity|].
  assert (One : js_arg l s a = map_err (tb l) (js_given (map fr_vars (sc_stack s)) a)).
  { destruct a; cbn [js_arg js_given]; try reflexivity. rewrite get_variable_vars. now destruct (get_variable _ _). }
  rewrite One. destruct (js_given _ a); cbn [map_err bind]; try reflexivity. rewrite IH. now destruct (map_res (js_given _) args).
Qed.
Lemma js_acts n code args : acts (PluginFn n (js_exec code args) None) (js_beh code args).
Proof.
  intros l s f r ST. cbn [pf_exec]. unfold js_exec, js_beh. rewrite js_given_arg. destruct (map_res (js_given _) args) as [vs|e|q|]; cbn [map_err bind]; try reflexivity.
  rewrite (js_run_effect _ s f r ST). rewrite <- ST. destruct (js_effect (code vs) _) as [[new t]|e|q|] eqn:E; cbn [bind fst snd]; try reflexivity; [|now apply js_effect_ok in E].
  destruct t as [t|]; cbn [output sc_stack set_stack add_out fr_name fr_vars fr_out sc_idx sc_secs]; [reflexivity|]. now rewrite app_nil_r.
Qed.
